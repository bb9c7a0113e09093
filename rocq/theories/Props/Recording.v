(** Property C168: a live stream recorded with a TS Mixer, from FLV bodies to what a player reads back. *)
From Coq Require Import String.
From Verif Require Import Base.Go Base.GoFacts Base.IO Proofs.IOFacts Model.AmfTypes Model.Packet Model.Flv Model.Parsers Model.Crc32 Model.Ts
  Spec.Flv Spec.Crc32 Spec.Parsers Spec.Ts Proofs.Crc32 Proofs.Flv Proofs.Parsers Proofs.TsPackets Proofs.TsTables Proofs.TsMore Props.Flv Props.Parsers Props.Ts Props.TsMixer Props.Remux Spec.Mixer.
Import ListNotations.
Local Open Scope list_scope.
Local Open Scope Z_scope.
Local Ltac Zify.zify_post_hook ::= Z.div_mod_to_equations.

(** What a recorder does: SetTsHeader, as at the start of a segment, and the calls for a body with its time stamp. *)
Inductive rec_event := Tables | Body (p : packet) (ms : Z).
Definition recorder (es : list rec_event) : list mix_op :=
  flat_map (fun e => match e with Tables => [XHeader] | Body p ms => remux (p, ms) end) es.

(** ** Which streams, and what a player should find *)
(** A video access unit: presentation and decoding time, byte stream. An AAC frame: time of the body in milliseconds,
    object type, frequency index and channels, raw data. *)
Record access_unit := mkAU { au_pts : Z; au_dts : Z; au_bytes : bytes }.
Record aac_frame := mkAF { af_ms : Z; af_config : Z * Z * Z; af_raw : bytes }.
(** A stream with any number of H.264 and AAC configurations, each before the frames it is for. [sets] are the parameter
    sets, as byte stream, and [cfg] the AAC configuration before the events. An AAC configuration replaces the one before; the
    parameter sets of an H.264 configuration, and what follows them in the record, are added to those before (C24). *)
Inductive live : option bytes -> option (Z * Z * Z) -> list rec_event -> list access_unit -> list aac_frame -> Prop :=
| Lv_end sets cfg : live sets cfg [] [] []
| Lv_tables sets cfg es V A : live sets cfg es V A -> live sets cfg (Tables :: es) V A
| Lv_other sets cfg p ms es V A : p_type p <> 0 -> p_type p <> 1 -> is_bytes (p_data p) -> live sets cfg es V A -> live sets cfg (Body p ms :: es) V A
| Lv_avc_config sets cfg p ms r sps pps ext es V A : is_bytes (p_data p) -> avc_config p r -> header_of sps pps ext r ->
    live (Some (match sets with Some c => c | None => [] end ++ annexb [sps; pps] ++ ext)) cfg es V A -> live sets cfg (Body p ms :: es) V A
| Lv_aac_config sets cfg p ms c0 c1 more ot i ch es V A : is_bytes (p_data p) -> aac_config p (c0 :: c1 :: more) -> config_bits c0 c1 = (ot, i, ch) ->
    1 <= ot <= 4 -> i <= 12 -> ch <= 7 -> live sets (Some (ot, i, ch)) es V A -> live sets cfg (Body p ms :: es) V A
| Lv_video sets cfg p ms key cts nals bs es V A : is_bytes (p_data p) -> avc_units p key cts nals -> nals <> [] -> Forall good_nal nals ->
    Forall (fun n => is_supported n = true) nals -> (forall n ns, nals = n :: ns -> len n <> 1) -> 0 <= ms < 47721859 ->
    converts sets nals bs -> (key = true -> 170 <= len bs) ->
    live (Some sets) cfg es V A -> live (Some sets) cfg (Body p ms :: es) (mkAU (90 * (ms + cts)) (90 * ms) bs :: V) A
| Lv_audio sets cfg p ms raw es V A : is_bytes (p_data p) -> aac_raw p raw -> 1 <= len raw <= 8184 -> 0 <= ms < 47721859 ->
    live sets (Some cfg) es V A -> live sets (Some cfg) (Body p ms :: es) V (mkAF ms cfg raw :: A).
(** A PES packet with an access unit: both times, or one if they are the same. *)
Definition shows_unit (u : access_unit) (e : pes) : Prop :=
  pes_sid e = 0xe0 /\ option_map snd (pes_pts e) = Some (au_pts u) /\ option_map snd (pes_dts e) = (if au_pts u =? au_dts u then None else Some (au_dts u)) /\ pes_payload e = au_bytes u.
(** A PES packet with an ADTS frame, at a time at most 10 ms away. *)
Definition shows_frame (f : aac_frame) (e : pes) : Prop :=
  let '(ot, i, ch) := af_config f in
  pes_sid e = 0xc0 /\ (exists t, option_map snd (pes_pts e) = Some t /\ Z.abs (t - 90 * af_ms f) <= 900) /\ option_map snd (pes_dts e) = None /\
  read_adts (pes_payload e) = Some (mkAdts 4095 0 0 1 (ot - 1) i 0 ch 0 0 0 0 (7 + len (af_raw f)) 2047 0, af_raw f).

(** ** Proof *)
Lemma mix_run_app a : forall s b, mix_run s (a ++ b) = let '(s1, r1) := mix_run s a in let '(s2, r2) := mix_run s1 b in (s2, r1 ++ r2).
Proof.
  induction a as [|o a IH]; intros s b; cbn [mix_run app]; [destruct (mix_run s b); reflexivity|]. destruct (mix_step s o) as [s1 r]. rewrite IH. destruct (mix_run s1 a) as [s2 r2]. destruct (mix_run s2 b). reflexivity.
Qed.
Lemma frames_app a : forall s b, frames_sent s (a ++ b) = frames_sent s a ++ frames_sent (fst (mix_run s a)) b.
Proof.
  induction a as [|o a IH]; intros s b; cbn [mix_run app frames_sent]; [reflexivity|]. rewrite IH. destruct (mix_step s o) as [s1 r]. cbn [fst]. destruct (mix_run s1 a) as [s2 r2]. cbn [fst]. apply app_assoc.
Qed.
(** A program so far: the calls os, all from a new Mixer; the parameter sets and configuration it holds. *)
Record sofar (os : list mix_op) (x : tsmix) (w : writer) (sets : option bytes) (cfg : option (Z * Z * Z)) : Prop := {
  sf_run : exists w0 rs, mix_run (new_tsmix, w0) os = (x, w, rs);
  sf_writer : never_fails w;
  sf_bytes : Forall (fun o => is_bytes (fst (fst o))) (avc_ops (parsed os));
  sf_sets : remembers (avc_ops (parsed os)) (match sets with Some c => c | None => [] end);
  sf_meta : x_meta x = [];
  sf_cfg : match cfg with
           | None => True
           | Some (ot, i, ch) => 1 <= ot <= 4 /\ i <= 12 /\ ch <= 7 /\ exists pre pc post c0 c1 more, os = pre ++ XSaveAAC pc :: post /\ route_of pc = RAac 0 (c0 :: c1 :: more) /\ byte c0 /\ byte c1 /\
               config_bits c0 c1 = (ot, i, ch) /\ Forall no_config (aac_ops (parsed post))
           end }.
Lemma sofar_used os x w sets cfg : sofar os x w sets cfg -> mixer_used x.
Proof. intros H. destruct (sf_run _ _ _ _ _ H) as (w0 & rs & E). eexists _, _, _, _. exact E. Qed.
Lemma sofar_h264 os x w sets cfg : sofar os x w sets cfg -> h264_used (avc_ops (parsed os)) (or_new (cp_h264 (x_codec x)) new_h264).
Proof.
  intros H. split; [apply (sf_bytes _ _ _ _ _ H)|]. destruct (sf_run _ _ _ _ _ H) as (w0 & rs & E). pose proof (mix_run_codec os new_tsmix w0) as HC. rewrite E in HC. cbn [fst x_codec new_tsmix] in HC.
  destruct (codec_run_state (mix_packets os) new_codec) as (EA & _ & _). rewrite <- HC in EA. symmetry. exact EA.
Qed.
Lemma run_snoc os x w w0 rs os' x' w' rs' : mix_run (new_tsmix, w0) os = (x, w, rs) -> mix_run (x, w) os' = (x', w', rs') -> exists rs2, mix_run (new_tsmix, w0) (os ++ os') = (x', w', rs2).
Proof. intros E1 E2. rewrite mix_run_app, E1, E2. eexists. reflexivity. Qed.
Lemma set_header_ok x w : mix_inv x -> x_meta x = [] -> never_fails w -> exists x' w', mix_set_header x w = (x', (w', Ok tt)) /\ never_fails w' /\ x_meta x' = [].
Proof.
  intros HI HM HW. destruct HI as (HT & _). destruct (tables_ok x HT) as (k & s & a & b & ps & pa & pb & ba & bb & E & _); [rewrite HM; unfold len; cbn [length]; lia|].
  rewrite set_header_tables, E, run_plan_ok by exact HW. eexists _, _. split; [reflexivity|]. split; [exact HW|exact HM].
Qed.
(** A call that sends no frame and parses nothing. *)
Lemma sofar_quiet os x w sets cfg o x' w' : sofar os x w sets cfg -> mix_step (x, w) o = (x', w', Ok tt) -> parsed [o] = [] -> never_fails w' -> x_meta x' = [] -> sofar (os ++ [o]) x' w' sets cfg.
Proof.
  intros H E HP HW HM. destruct (sf_run _ _ _ _ _ H) as (w0 & rs & ER).
  assert (EP : parsed (os ++ [o]) = parsed os) by (rewrite parsed_app, HP, app_nil_r; reflexivity). constructor; try assumption; try (rewrite EP; apply H).
  - destruct (run_snoc _ _ _ _ _ [o] x' w' [Ok tt] ER) as (rs2 & E2); [cbn [mix_run]; rewrite E; reflexivity|]. exists w0, rs2. exact E2.
  - pose proof (sf_cfg _ _ _ _ _ H) as C. destruct cfg as [[[ot i] ch]|]; [|exact C]. destruct C as (C1 & C2 & C3 & pre & pc & post & c0 & c1 & more & -> & C4 & C5 & C6 & C7 & C8).
    split; [exact C1|]. split; [exact C2|]. split; [exact C3|]. exists pre, pc, (post ++ [o]), c0, c1, more. rewrite <- app_assoc. cbn [app]. rewrite parsed_app, HP, app_nil_r. auto 10.
Qed.
(** Sequence headers: nothing is sent. *)
Lemma save_ok t x p c : mix_inv x -> codec_parse (x_codec x) p buffer0 = (c, (buffer0, Ok tt)) -> exists x', mix_save_header t x p = (x', set_media [] p, Ok tt) /\ x_meta x' = x_meta x.
Proof.
  intros HI EC. unfold mix_save_header, mix_parse. cbn [x_codec set_types]. rewrite EC. cbn [w_out buffer0]. pose proof (codec_accepts_can _ _ _ _ _ EC) as HC.
  assert (HT : p_type (set_media [] p) = PktVideo \/ p_type (set_media [] p) = PktAudio) by (destruct HC as [X|[X _]]; [right|left]; exact X).
  destruct (mux_frame (x_muxer (set_codec c (set_types t x))) (set_media [] p) 0 0 buffer0) as (m' & w' & o & p0 & l & E & _).
  - apply HI.
  - apply set_media_can, HC.
  - intros _. rewrite total_len by exact HT. unfold pes_total. change (0 =? 0) with true. cbn [negb]. rewrite Bool.andb_false_r. unfold len. cbn. lia.
  - intros n. reflexivity.
  - rewrite E. eexists. split; reflexivity.
Qed.
Lemma sofar_avc os x w sets cfg p r sps pps ext : sofar os x w sets cfg -> route_of p = RAvc true r -> is_bytes r -> header_of sps pps ext r ->
  exists x', mix_step (x, w) (XSaveAVC p) = (x', w, Ok tt) /\ sofar (os ++ [XSaveAVC p]) x' w (Some (match sets with Some c => c | None => [] end ++ annexb [sps; pps] ++ ext)) cfg.
Proof.
  intros H HR HB HH. pose proof (mixer_ok x (sofar_used _ _ _ _ _ H)) as HI. pose proof (sofar_h264 _ _ _ _ _ H) as HU.
  destruct (C25_header_accepted _ _ r buffer0 HU HB) as [[A _] _]. specialize (A (ex_intro _ _ (ex_intro _ _ (ex_intro _ _ HH)))).
  assert (EC : exists c, codec_parse (x_codec x) p buffer0 = (c, (buffer0, Ok tt))).
  { rewrite codec_parse_route, HR. destruct (h264_parse _ r true buffer0) as [h wr]. cbn [snd] in A. subst wr. eexists. reflexivity. }
  destruct EC as (c & EC). destruct (save_ok (types_is_video (x_types x)) x p c HI EC) as (x' & E & EM). exists x'.
  assert (ES : mix_step (x, w) (XSaveAVC p) = (x', w, Ok tt)) by (cbn [mix_step]; unfold mix_save_avc; rewrite E; reflexivity). split; [exact ES|].
  assert (EP : avc_ops (parsed (os ++ [XSaveAVC p])) = avc_ops (parsed os) ++ [(r, true, buffer0)]).
  { rewrite parsed_app, avc_ops_app. f_equal. cbn [parsed flat_map app avc_ops fst snd]. rewrite HR. reflexivity. }
  destruct (sf_run _ _ _ _ _ H) as (w0 & rs & ER). constructor.
  - destruct (run_snoc _ _ _ _ _ [XSaveAVC p] x' w [Ok tt] ER) as (rs2 & E2); [cbn [mix_run]; rewrite ES; reflexivity|]. exists w0, rs2. exact E2.
  - apply H.
  - rewrite EP. apply Forall_app. split; [apply H|]. constructor; [exact HB|constructor].
  - rewrite EP. exact (Rm_header _ _ r buffer0 sps pps ext (sf_sets _ _ _ _ _ H) HH).
  - rewrite EM. apply H.
  - pose proof (sf_cfg _ _ _ _ _ H) as C. destruct cfg as [[[ot i] ch]|]; [|exact C]. destruct C as (C1 & C2 & C3 & pre & pc & post & c0 & c1 & more & -> & C4 & C5 & C6 & C7 & C8).
    split; [exact C1|]. split; [exact C2|]. split; [exact C3|]. exists pre, pc, (post ++ [XSaveAVC p]), c0, c1, more. rewrite <- app_assoc. cbn [app]. rewrite parsed_app, aac_ops_app2. repeat (split; [first [reflexivity|assumption]|]).
    apply Forall_app. split; [exact C8|]. cbn [parsed flat_map app aac_ops fst snd]. rewrite HR. constructor.
Qed.
Lemma sofar_aac os x w sets cfg p c0 c1 more ot i ch : sofar os x w sets cfg -> route_of p = RAac 0 (c0 :: c1 :: more) -> byte c0 -> byte c1 -> config_bits c0 c1 = (ot, i, ch) ->
  1 <= ot <= 4 -> i <= 12 -> ch <= 7 -> exists x', mix_step (x, w) (XSaveAAC p) = (x', w, Ok tt) /\ sofar (os ++ [XSaveAAC p]) x' w sets (Some (ot, i, ch)).
Proof.
  intros H HR B0 B1 HC Ho Hi Hch. pose proof (mixer_ok x (sofar_used _ _ _ _ _ H)) as HI.
  assert (EC : exists c, codec_parse (x_codec x) p buffer0 = (c, (buffer0, Ok tt))).
  { rewrite codec_parse_route, HR. unfold aac_parse. rewrite !len_cons. pose proof (len_nonneg more). replace (1 + (1 + len more) =? 0) with false by lia. change (0 =? 0) with true. cbv iota.
    pose proof (specific_info_eq (or_new (cp_aac (x_codec x)) new_aac) c0 c1 more B0 B1) as SE. rewrite HC in SE. destruct SE as (SE & _). rewrite SE. replace (i =? 15) with false by lia. eexists. reflexivity. }
  destruct EC as (c & EC). destruct (save_ok (types_is_audio (x_types x)) x p c HI EC) as (x' & E & EM). exists x'.
  assert (ES : mix_step (x, w) (XSaveAAC p) = (x', w, Ok tt)) by (cbn [mix_step]; unfold mix_save_aac; rewrite E; reflexivity). split; [exact ES|].
  assert (EP : avc_ops (parsed (os ++ [XSaveAAC p])) = avc_ops (parsed os)).
  { rewrite parsed_app, avc_ops_app. cbn [parsed flat_map app avc_ops fst snd]. rewrite HR. apply app_nil_r. }
  destruct (sf_run _ _ _ _ _ H) as (w0 & rs & ER). constructor; try (rewrite EP; apply H).
  - destruct (run_snoc _ _ _ _ _ [XSaveAAC p] x' w [Ok tt] ER) as (rs2 & E2); [cbn [mix_run]; rewrite ES; reflexivity|]. exists w0, rs2. exact E2.
  - apply H.
  - rewrite EM. apply H.
  - repeat (split; [first [assumption|lia]|]). exists os, p, [], c0, c1, more. repeat (split; [first [reflexivity|assumption]|]). constructor.
Qed.

(** Frames. *)
Lemma sofar_frame os x w sets cfg p pid key ms cts x1 c wc : sofar os x w sets cfg -> frame p pid key -> mix_update x p ms cts = (x1, Ok tt) ->
  codec_parse (x_codec x) p buffer0 = (c, (wc, Ok tt)) -> (key = true -> 170 <= len (w_out wc)) ->
  (forall s m, route_of p = RAvc s m -> s = false /\ is_bytes m) -> (forall t m, route_of p = RAac t m -> t <> 0) ->
  exists x' w', mix_run (x, w) [XUpdate p ms cts; XMux p] = (x', w', [Ok tt; Ok tt]) /\
    frames_sent (x, w) [XUpdate p ms cts; XMux p] = [mkSent (p_type p) key (x_pts x1) (x_dts x1) (w_out wc)] /\
    sofar (os ++ [XUpdate p ms cts; XMux p]) x' w' sets cfg.
Proof.
  intros H HF EU EC HK HV HA. pose proof (sofar_used _ _ _ _ _ H) as Hx.
  assert (EX : x_codec x1 = x_codec x /\ x_meta x1 = x_meta x).
  { revert EU. unfold mix_update. destruct (p_type p =? PktVideo); [intros E; injection E as <-; split; reflexivity|]. destruct (p_type p =? PktAudio); [|intros E; injection E as <-; split; reflexivity].
    destruct (codec_rate (x_codec x)); [|intros E; injection E as <- _; split; reflexivity|discriminate|discriminate]. destruct (sync_audio _ _ _) as [[s d]| | |]; try discriminate. intros E; injection E as <-; split; reflexivity. }
  destruct EX as [EX1 EX2]. pose proof (used_step x w (XUpdate p ms cts) Hx) as Hx1. cbn [mix_step] in Hx1. rewrite EU in Hx1. cbn [fst] in Hx1.
  destruct (frame_can _ _ _ HF) as (HC & EK & EP & HT). destruct (mixer_ok x1 Hx1) as (HM & _).
  set (q := set_media (w_out wc) p). assert (HTq : p_type q = PktVideo \/ p_type q = PktAudio) by exact HT.
  destruct (mux_frame (x_muxer x1) q (x_dts x1) (x_pts x1) w HM) as (m' & w' & o & p0 & l & E & E1 & E2 & _).
  { apply set_media_can, HC. }
  { unfold q at 1. rewrite set_media_key, EK, total_len by exact HTq. intros HKey. specialize (HK HKey). unfold pes_total. change (media_of q) with (w_out wc). destruct (_ && _); lia. }
  { apply H. }
  assert (EM : mix_mux x1 p w = (set_muxer m' (set_codec c x1), q, (w', Ok tt))) by (rewrite mux_result, EX1, EC; fold q; rewrite E; reflexivity).
  exists (set_muxer m' (set_codec c x1)), w'.
  assert (ER : mix_run (x, w) [XUpdate p ms cts; XMux p] = (set_muxer m' (set_codec c x1), w', [Ok tt; Ok tt])) by (cbn [mix_run mix_step]; rewrite EU; cbn [mix_step]; rewrite EM; reflexivity).
  split; [exact ER|]. split.
  { cbn [frames_sent app mix_step fst snd]. rewrite EU. cbn [fst snd]. rewrite EM. cbn [app]. f_equal. f_equal.
    unfold keyed. destruct HF as [(F1 & F2 & F3)|(F1 & F2 & v & F3 & F4)]; [rewrite F1; change (1 =? 0) with false; destruct (video_of p); subst key; reflexivity|rewrite F3, F1, F4; reflexivity]. }
  destruct (sf_run _ _ _ _ _ H) as (w0 & rs & ES). destruct (run_snoc _ _ _ _ _ _ _ _ _ ES ER) as (rs2 & ES2).
  assert (EPo : parsed (os ++ [XUpdate p ms cts; XMux p]) = parsed os ++ [(p, buffer0)]) by (rewrite parsed_app; reflexivity).
  constructor.
  - exists w0, rs2. exact ES2.
  - exact E2.
  - rewrite EPo, avc_ops_app. apply Forall_app. split; [apply H|]. cbn [avc_ops flat_map fst snd]. destruct (route_of p) as [| |s m|t m|m] eqn:R; cbn [app]; try constructor; [|constructor]. apply (HV s m eq_refl).
  - rewrite EPo, avc_ops_app. apply remembers_media; [apply H|]. cbn [avc_ops flat_map fst snd]. destruct (route_of p) as [| |s m|t m|m] eqn:R; cbn [app]; try constructor; [|constructor]. apply (HV s m eq_refl).
  - cbn [set_muxer set_codec x_meta]. rewrite EX2. apply H.
  - pose proof (sf_cfg _ _ _ _ _ H) as C. destruct cfg as [[[ot i] ch]|]; [|exact C]. destruct C as (C1 & C2 & C3 & pre & pc & post & c0 & c1 & more & -> & C4 & C5 & C6 & C7 & C8).
    split; [exact C1|]. split; [exact C2|]. split; [exact C3|]. exists pre, pc, (post ++ [XUpdate p ms cts; XMux p]), c0, c1, more. rewrite <- app_assoc. cbn [app]. repeat (split; [first [reflexivity|assumption]|]).
    rewrite parsed_app, aac_ops_app2. apply Forall_app. split; [exact C8|]. cbn [parsed flat_map app aac_ops fst snd]. destruct (route_of p) as [| |s m|t m|m] eqn:R; cbn [app]; try constructor; [|constructor]. left. cbn [fst snd]. apply (HA t m eq_refl).
Qed.
Lemma sofar_video os x w sets cfg p ms key cts nals bs : sofar os x w (Some sets) cfg -> is_bytes (p_data p) -> avc_units p key cts nals -> nals <> [] -> Forall good_nal nals ->
  Forall (fun n => is_supported n = true) nals -> (forall n ns, nals = n :: ns -> len n <> 1) -> 0 <= ms < 47721859 -> converts sets nals bs -> (key = true -> 170 <= len bs) ->
  exists x' w', mix_run (x, w) (remux (p, ms)) = (x', w', [Ok tt; Ok tt]) /\ frames_sent (x, w) (remux (p, ms)) = [mkSent 0 key (90 * (ms + cts)) (90 * ms) bs] /\
    Forall same_writer (remux (p, ms)) /\ sofar (os ++ remux (p, ms)) x' w' (Some sets) cfg.
Proof.
  intros H HB HU Hne HG HS H1 Hms HCv HK. destruct (remux_units p ms key cts nals HB HU) as (p' & ER & HR & HF & HT). rewrite ER. pose proof (sofar_used _ _ _ _ _ H) as Hx.
  assert (HBy : is_bytes (avcc nals)). { destruct HU as (_ & b0 & _ & _ & _ & _ & ED). rewrite ED in HB. apply Forall_inv_tail, Forall_inv_tail in HB. apply Forall_app in HB. apply HB. }
  destruct (C21_avcc_to_annexb _ _ _ nals buffer0 (sofar_h264 _ _ _ _ _ H) (sf_sets _ _ _ _ _ H) Hne HG HS H1) as (q' & wc & out' & EP & EW & EC); [intros n; reflexivity|].
  cbn [w_out buffer0 app] in EW. assert (out' = bs) as -> by (eapply C21_conversion_unique; eassumption).
  assert (ECd : exists c, codec_parse (x_codec x) p' buffer0 = (c, (wc, Ok tt))) by (rewrite codec_parse_route, HR, EP; eexists; reflexivity). destruct ECd as (c & ECd).
  destruct HU as (_ & b0 & _ & _ & _ & Hcts & _). change (2 ^ 24) with 16777216 in Hcts.
  destruct (C48_update_partial x p' ms cts Hx) as (UV & _); try (change (2 ^ 32) with 4294967296; lia). destruct (UV HT) as (U1 & U2 & U3).
  destruct (mix_update x p' ms cts) as [x1 r1] eqn:EU. cbn [fst snd] in *. subst r1.
  destruct (sofar_frame os x w (Some sets) cfg p' 0x100 key ms cts x1 c wc H HF EU ECd) as (x' & w' & A1 & A2 & A3).
  { rewrite EW. exact HK. } { intros s m R. rewrite HR in R. injection R as <- <-. auto. } { intros t m R. rewrite HR in R. discriminate. }
  exists x', w'. split; [exact A1|]. rewrite U2, U3, HT, EW in A2. split; [exact A2|]. split; [repeat constructor|exact A3].
Qed.
Lemma sofar_audio os x w sets cfg p ms raw : sofar os x w sets (Some cfg) -> is_bytes (p_data p) -> aac_raw p raw -> 1 <= len raw <= 8184 -> 0 <= ms < 47721859 ->
  exists x' w' t header, mix_run (x, w) (remux (p, ms)) = (x', w', [Ok tt; Ok tt]) /\ frames_sent (x, w) (remux (p, ms)) = [mkSent 1 false t t (header ++ raw)] /\
    Forall same_writer (remux (p, ms)) /\ sofar (os ++ remux (p, ms)) x' w' sets (Some cfg) /\ Z.abs (t - 90 * ms) <= 900 /\
    let '(ot, i, ch) := cfg in read_adts (header ++ raw) = Some (mkAdts 4095 0 0 1 (ot - 1) i 0 ch 0 0 0 0 (7 + len raw) 2047 0, raw).
Proof.
  intros H HB HA HL Hms. destruct cfg as [[ot i] ch]. destruct (remux_raw p ms raw HB HA) as (p' & ER & HR & HF & HT). rewrite ER. pose proof (sofar_used _ _ _ _ _ H) as Hx.
  destruct (sf_run _ _ _ _ _ H) as (w0 & rs & E). pose proof (sf_cfg _ _ _ _ _ H) as (Ho & Hi & Hch & pre & pc & post & c0 & c1 & more & EO & HRc & B0 & B1 & HC & HN).
  pose proof (mix_run_codec os new_tsmix w0) as HCd. rewrite E in HCd. cbn [fst x_codec new_tsmix] in HCd. change (mix_packets os) with (parsed os) in HCd.
  destruct (codec_run_state (parsed os) new_codec) as (_ & EA & _). rewrite <- HCd in EA. cbn [cp_aac new_codec or_new] in EA.
  assert (EAO : aac_ops (parsed os) = aac_ops (parsed pre) ++ (c0 :: c1 :: more, 0, buffer0) :: aac_ops (parsed post)).
  { rewrite EO. change (XSaveAAC pc :: post) with ([XSaveAAC pc] ++ post). rewrite !parsed_app, !aac_ops_app2. cbn [parsed flat_map app aac_ops fst snd]. rewrite HRc. reflexivity. }
  destruct (aac_ops (parsed os)) as [|y ys] eqn:EY; [destruct (aac_ops (parsed pre)); discriminate|]. rewrite EAO in EA. clear EAO EY y ys.
  destruct (C15_adts_header (aac_ops (parsed pre)) c0 c1 more buffer0 (aac_ops (parsed post)) ot i ch raw buffer0 B0 B1 HN HC Ho Hi Hch HL) as (header & wc & EP & EW & EL & ERd); [intros n; reflexivity|].
  assert (ECd : exists c, codec_parse (x_codec x) p' buffer0 = (c, (wc, Ok tt))) by (rewrite codec_parse_route, HR, EA; cbn [or_new]; rewrite EP; eexists; reflexivity). destruct ECd as (c & ECd).
  destruct (C46_mixer_gap x p' ms 0 Hx HT) as (xu & ru & EU & _ & HG).
  assert (ru = Ok tt) as ->.
  { unfold mix_update in EU. rewrite HT in EU. change (1 =? PktVideo) with false in EU. change (1 =? PktAudio) with true in EU. cbv iota in EU. unfold codec_rate in EU. rewrite EA in EU.
    destruct (mixer_ok x Hx) as (_ & HCk & HS & _). match type of EA with _ = Some ?a => assert (ERt : codec_rate (x_codec x) = Ok (aac_sample_rate a)) by (unfold codec_rate; rewrite EA; reflexivity); pose proof (codec_rate_range _ _ HCk ERt) as HRr;
      destruct (sync_step_bounded (x_sync x) (u32 (ms * 90)) (aac_sample_rate a) HS) as (s' & d & ES & _); [unfold u32; lia|lia|] end. rewrite ES in EU. congruence. }
  destruct (HG eq_refl) as [G1 G2]. replace ((ms * 90) mod 2 ^ 32) with (90 * ms) in G1 by (change (2 ^ 32) with 4294967296; lia).
  destruct (sofar_frame os x w sets (Some (ot, i, ch)) p' 0x101 false ms 0 xu c wc H HF EU ECd) as (x' & w' & A1 & A2 & A3).
  { discriminate. } { intros s m R. rewrite HR in R. discriminate. } { intros t m R. rewrite HR in R. injection R as <- <-. discriminate. }
  exists x', w', (x_dts xu), header. cbn [w_out buffer0 app] in EW. rewrite HT, G2, EW in A2. split; [exact A1|]. split; [exact A2|]. split; [repeat constructor|]. split; [exact A3|]. split; [exact G1|exact ERd].
Qed.
Definition shown_unit (u : access_unit) (f : sent_frame) : Prop := sf_type f = 0 /\ sf_pts f = au_pts u /\ sf_dts f = au_dts u /\ sf_media f = au_bytes u.
Definition shown_frame (a : aac_frame) (f : sent_frame) : Prop :=
  sf_type f = 1 /\ Z.abs (sf_pts f - 90 * af_ms a) <= 900 /\
  let '(ot, i, ch) := af_config a in read_adts (sf_media f) = Some (mkAdts 4095 0 0 1 (ot - 1) i 0 ch 0 0 0 0 (7 + len (af_raw a)) 2047 0, af_raw a).
Lemma live_run sets cfg es V A : live sets cfg es V A -> forall os x w, sofar os x w sets cfg ->
  exists x' w' rs, mix_run (x, w) (recorder es) = (x', w', rs) /\ Forall (fun r => r = Ok tt) rs /\ Forall same_writer (recorder es) /\ long_keys (frames_sent (x, w) (recorder es)) /\
    Forall2 shown_unit V (of_type 0 (frames_sent (x, w) (recorder es))) /\ Forall2 shown_frame A (of_type 1 (frames_sent (x, w) (recorder es))).
Proof.
  induction 1 as [sets cfg|sets cfg es V A HL IH|sets cfg p ms es V A T0 T1 HB HL IH|sets cfg p ms r sps pps ext es V A HB HC HH HL IH|sets cfg p ms c0 c1 more ot i ch es V A HB HC Hcfg Ho Hi Hch HL IH
    |sets cfg p ms key cts nals bs es V A HB HU Hne HG HS H1 Hms HCv HK HL IH|sets cfg p ms raw es V A HB HR HLn Hms HL IH]; intros os x w HS0.
  - exists x, w, []. repeat split; constructor.
  - change (recorder (Tables :: es)) with ([XHeader] ++ recorder es). rewrite mix_run_app, frames_app.
    destruct (set_header_ok x w (mixer_ok x (sofar_used _ _ _ _ _ HS0)) (sf_meta _ _ _ _ _ HS0) (sf_writer _ _ _ _ _ HS0)) as (x1 & w1 & E & W1 & M1).
    assert (ES : mix_step (x, w) XHeader = (x1, w1, Ok tt)) by (cbn [mix_step]; rewrite E; reflexivity).
    destruct (IH _ _ _ (sofar_quiet _ _ _ _ _ _ _ _ HS0 ES eq_refl W1 M1)) as (x2 & w2 & rs & A1 & A2 & A3 & A4 & A5 & A6). cbn [mix_run frames_sent]. rewrite ES. cbn [fst app]. rewrite A1.
    exists x2, w2, (Ok tt :: rs). split; [reflexivity|]. split; [constructor; [reflexivity|exact A2]|]. split; [constructor; [exact I|exact A3]|]. auto.
  - destruct (remux_cases (p, ms) HB) as [E|(v & a & m & HD & _ & E)]; [|cbn [p_type fst] in E; apply Z.eqb_neq in T0, T1; rewrite T0, T1 in E]; change (recorder (Body p ms :: es)) with (remux (p, ms) ++ recorder es); rewrite E; exact (IH os x w HS0).
  - destruct (remux_config p ms r HB HC) as (p' & E1 & E2). change (recorder (Body p ms :: es)) with (remux (p, ms) ++ recorder es). rewrite E1, mix_run_app, frames_app.
    assert (HBr : is_bytes r). { destruct HC as (_ & b0 & a & b & c & _ & _ & _ & _ & _ & _ & ED). rewrite ED in HB. do 5 apply Forall_inv_tail in HB. exact HB. }
    destruct (sofar_avc os x w sets cfg p' r sps pps ext HS0 E2 HBr HH) as (x1 & ES & HS1). destruct (IH _ _ _ HS1) as (x2 & w2 & rs & A1 & A2 & A3 & A4 & A5 & A6). cbn [mix_run frames_sent]. rewrite ES. cbn [fst app]. rewrite A1.
    exists x2, w2, (Ok tt :: rs). split; [reflexivity|]. split; [constructor; [reflexivity|exact A2]|]. split; [constructor; [exact I|exact A3]|]. auto.
  - destruct (remux_aac_config p ms _ HB HC) as (p' & E1 & E2). change (recorder (Body p ms :: es)) with (remux (p, ms) ++ recorder es). rewrite E1, mix_run_app, frames_app.
    assert (HBc : byte c0 /\ byte c1). { destruct HC as (_ & b0 & _ & _ & ED). rewrite ED in HB. do 2 apply Forall_inv_tail in HB. split; [apply (Forall_inv HB)|apply (Forall_inv (Forall_inv_tail HB))]. }
    destruct (sofar_aac os x w sets cfg p' c0 c1 more ot i ch HS0 E2 (proj1 HBc) (proj2 HBc) Hcfg Ho Hi Hch) as (x1 & ES & HS1). destruct (IH _ _ _ HS1) as (x2 & w2 & rs & A1 & A2 & A3 & A4 & A5 & A6). cbn [mix_run frames_sent]. rewrite ES. cbn [fst app]. rewrite A1.
    exists x2, w2, (Ok tt :: rs). split; [reflexivity|]. split; [constructor; [reflexivity|exact A2]|]. split; [constructor; [exact I|exact A3]|]. auto.
  - change (recorder (Body p ms :: es)) with (remux (p, ms) ++ recorder es). rewrite mix_run_app, frames_app.
    destruct (sofar_video os x w sets cfg p ms key cts nals bs HS0 HB HU Hne HG HS H1 Hms HCv HK) as (x1 & w1 & E1 & E2 & E3 & HS1). destruct (IH _ _ _ HS1) as (x2 & w2 & rs & A1 & A2 & A3 & A4 & A5 & A6). rewrite E1, E2. cbn [fst]. rewrite A1.
    exists x2, w2, ([Ok tt; Ok tt] ++ rs). split; [reflexivity|]. split; [repeat constructor; exact A2|]. split; [apply Forall_app; auto|]. split; [constructor; [exact HK|exact A4]|].
    unfold of_type. cbn [app filter sf_type]. change (0 =? 0) with true. change (0 =? 1) with false. cbv iota. split; [|exact A6]. constructor; [repeat split|exact A5].
  - change (recorder (Body p ms :: es)) with (remux (p, ms) ++ recorder es). rewrite mix_run_app, frames_app.
    destruct (sofar_audio os x w sets cfg p ms raw HS0 HB HR HLn Hms) as (x1 & w1 & t & header & E1 & E2 & E3 & HS1 & G1 & G2). destruct (IH _ _ _ HS1) as (x2 & w2 & rs & A1 & A2 & A3 & A4 & A5 & A6). rewrite E1, E2. cbn [fst]. rewrite A1.
    exists x2, w2, ([Ok tt; Ok tt] ++ rs). split; [reflexivity|]. split; [repeat constructor; exact A2|]. split; [apply Forall_app; auto|]. split; [constructor; [discriminate|exact A4]|].
    unfold of_type. cbn [app filter sf_type]. change (1 =? 0) with false. change (1 =? 1) with true. cbv iota. split; [exact A5|]. constructor; [|exact A6]. split; [reflexivity|]. split; [exact G1|exact G2].
Qed.

(** ** C168 *)
(** Whatever the stream, the bodies in between and the tables: no call fails, and a player that demultiplexes the recording finds
    every access unit and every AAC frame, in order, converted, and nothing else. *)
Theorem C168_recording_read_back : forall es V A w0 x w rs, live None None es V A -> never_fails w0 -> mix_run (new_tsmix, w0) (recorder es) = (x, w, rs) ->
  Forall (fun r => r = Ok tt) rs /\
  exists out vs aus, w_out w = w_out w0 ++ out /\ demultiplex 0x100 out = Some vs /\ demultiplex 0x101 out = Some aus /\ Forall2 shows_unit V vs /\ Forall2 shows_frame A aus.
Proof.
  intros es V A w0 x w rs HL HW E.
  assert (S0 : sofar [] new_tsmix w0 None None) by (constructor; [exists w0, []; reflexivity|exact HW|constructor|exact Rm_new|reflexivity|exact I]).
  destruct (live_run _ _ _ _ _ HL _ _ _ S0) as (x' & w' & rs' & A1 & A2 & A3 & A4 & A5 & A6). rewrite A1 in E. injection E as -> -> ->. split; [exact A2|].
  assert (HN : ~ In Panic rs) by (intros X; rewrite Forall_forall in A2; specialize (A2 _ X); discriminate).
  assert (HU : mixer_used new_tsmix) by (exists [], w0, w0, []; reflexivity).
  destruct (C132_stream_read_back _ _ _ _ _ _ HU A3 HW A1 HN A4) as (out & vs & aus & B1 & B2 & B3 & B4 & B5). exists out, vs, aus. split; [exact B1|]. split; [exact B2|]. split; [exact B3|].
  split.
  - clear - A5 B4. revert V vs A5 B4. induction (of_type 0 (frames_sent (new_tsmix, w0) (recorder es))) as [|f fs IH]; intros V vs A5 B4; inversion A5 as [|u ? V' ? (S1 & S2 & S3 & S4) A5']; inversion B4 as [|? e ? vs' (C1 & C2 & C3 & C4) B4']; subst; constructor; auto.
    rewrite S1 in *. change (0 =? 0) with true in *. cbn [andb] in C4. rewrite S2 in C3, C4. rewrite S3 in C4. rewrite S4 in C2. repeat split; try assumption. rewrite C4. destruct (au_pts u =? au_dts u); reflexivity.
  - clear - A6 B5. revert A aus A6 B5. induction (of_type 1 (frames_sent (new_tsmix, w0) (recorder es))) as [|f fs IH]; intros A aus A6 B5; inversion A6 as [|u ? A' ? (S1 & S2 & S3) A6']; inversion B5 as [|? e ? vs' (C1 & C2 & C3 & C4) B5']; subst; constructor; auto.
    unfold shows_frame. destruct (af_config u) as [[ot i] ch]. rewrite S1 in *. change (1 =? 0) with false in *. cbn [andb] in C4. rewrite <- C2 in S3. split; [exact C1|]. split; [exists (sf_pts f); auto|]. auto.
Qed.
Print Assumptions C168_recording_read_back.
(** Metadata, both configurations, tables, a key frame, an AAC frame, a frame with a composition time, tables again. *)
Definition ex_idr168 : bytes := 0x65 :: repeat 1 (Z.to_nat 200).
Definition ex_live : list rec_event :=
  [Body (body 2 [2; 0; 1; 65]) 0; Body (fst ex_cfg) 0; Body (fst ex_aac_cfg) 0; Tables; Body (ex_unit true 0 ex_idr168) 40; Body (body 1 [0xaf; 1; 7; 7]) 41; Body (ex_unit false 40 ex_slice) 80; Tables].
Lemma ex_live_ok : live None None ex_live
  [mkAU 3600 3600 (delimiter ++ annexb [ex_sps; ex_pps] ++ annexb [ex_idr168]); mkAU 10800 7200 (delimiter ++ annexb [ex_slice])] [mkAF 41 (2, 4, 2) [7; 7]].
Proof.
  apply Lv_other; [discriminate|discriminate|apply bytes_dec; reflexivity|].
  eapply Lv_avc_config with (r := ex_header ex_sps ex_pps []) (sps := ex_sps) (pps := ex_pps) (ext := []); [apply bytes_dec; reflexivity|split; [reflexivity|]; exists 0x17, 0, 0, 0; unfold byte; repeat (split; [lia|]); reflexivity|apply Hd_record; unfold len; cbn; lia|].
  eapply Lv_aac_config with (c0 := 0x12) (c1 := 0x10) (more := []); [apply bytes_dec; reflexivity|split; [reflexivity|]; exists 0xaf; unfold byte; repeat (split; [lia|]); reflexivity|reflexivity|lia|lia|lia|].
  apply Lv_tables.
  change (mkAU 3600 3600) with (mkAU (90 * (40 + 0)) (90 * 40)). eapply Lv_video with (key := true) (nals := [ex_idr168]).
  { apply bytes_dec. vm_compute. reflexivity. } { split; [reflexivity|]. exists 0x17. unfold byte. change (2 ^ 24) with 16777216. repeat (split; [lia|]). reflexivity. } { discriminate. }
  { constructor; [|constructor]. split; [discriminate|]. split; [apply bytes_dec; vm_compute; reflexivity|vm_compute; reflexivity]. } { repeat constructor. } { intros n ns E. injection E as <- _. vm_compute. discriminate. } { lia. }
  { apply (Cv_idr _ [] ex_idr168 []); [intros n []|reflexivity]. } { intros _. vm_compute. discriminate. }
  apply Lv_audio with (raw := [7; 7]); [apply bytes_dec; reflexivity|split; [reflexivity|]; exists 0xaf; unfold byte; repeat (split; [lia|]); reflexivity|unfold len; cbn; lia|lia|].
  change (mkAU 10800 7200) with (mkAU (90 * (80 + 40)) (90 * 80)). eapply Lv_video with (key := false) (nals := [ex_slice]).
  { apply bytes_dec. reflexivity. } { split; [reflexivity|]. exists 0x27. unfold byte. change (2 ^ 24) with 16777216. repeat (split; [lia|]). reflexivity. } { discriminate. }
  { constructor; [|constructor]. split; [discriminate|]. split; [apply bytes_dec; reflexivity|reflexivity]. } { repeat constructor. } { intros n ns E. injection E as <- _. vm_compute. discriminate. } { lia. }
  { apply Cv_no_idr. intros n [<-|[]]. reflexivity. } { discriminate. }
  apply Lv_tables. apply Lv_end.
Qed.
Example C168_example : let '(_, w, rs) := mix_run (new_tsmix, buffer0) (recorder ex_live) in
  len (w_out w) = 188 * 10 /\ len rs = 10 /\ option_map (map (fun e => option_map snd (pes_pts e))) (demultiplex 0x100 (w_out w)) = Some [Some 3600; Some 10800] /\
  option_map (map (fun e => option_map snd (pes_pts e))) (demultiplex 0x101 (w_out w)) = Some [Some 3690].
Proof. vm_compute. repeat split. Qed.
(** A publisher that repeats its configuration: the parameter sets come once more in every key frame. *)
Example C168_repeated : exists es, length es = 4%nat /\ live None None es
  [mkAU 3600 3600 (delimiter ++ annexb [ex_sps; ex_pps] ++ annexb [ex_idr168]); mkAU 3600 3600 (delimiter ++ annexb [ex_sps; ex_pps; ex_sps; ex_pps] ++ annexb [ex_idr168])] [].
Proof.
  assert (HV : forall s es V A, live (Some s) None es V A -> 0 <= len s -> live (Some s) None (Body (ex_unit true 0 ex_idr168) 40 :: es) (mkAU 3600 3600 (delimiter ++ s ++ annexb [ex_idr168]) :: V) A).
  { intros s es V A H Hs. change (mkAU 3600 3600) with (mkAU (90 * (40 + 0)) (90 * 40)). eapply Lv_video with (key := true) (nals := [ex_idr168]).
    { apply bytes_dec. vm_compute. reflexivity. } { split; [reflexivity|]. exists 0x17. unfold byte. change (2 ^ 24) with 16777216. repeat (split; [lia|]). reflexivity. } { discriminate. }
    { constructor; [|constructor]. split; [discriminate|]. split; [apply bytes_dec; vm_compute; reflexivity|vm_compute; reflexivity]. } { repeat constructor. } { intros n ns E. injection E as <- _. vm_compute. discriminate. } { lia. }
    { apply (Cv_idr _ [] ex_idr168 []); [intros n []|reflexivity]. } { intros _. rewrite !len_app. change (len (annexb [ex_idr168])) with 205. change (len delimiter) with 6. lia. } exact H. }
  assert (HC : forall sets es V A, live (Some (match sets with Some c => c | None => [] end ++ annexb [ex_sps; ex_pps] ++ [])) None es V A -> live sets None (Body (fst ex_cfg) 0 :: es) V A).
  { intros sets es V A H. eapply Lv_avc_config with (r := ex_header ex_sps ex_pps []) (sps := ex_sps) (pps := ex_pps) (ext := []); [apply bytes_dec; reflexivity|split; [reflexivity|]; exists 0x17, 0, 0, 0; unfold byte; repeat (split; [lia|]); reflexivity|apply Hd_record; unfold len; cbn; lia|]. exact H. }
  eexists. split; [|apply HC; cbn [app]; rewrite app_nil_r; apply HV; [apply HC; rewrite app_nil_r; apply HV; [apply Lv_end|]|]]; [reflexivity|apply len_nonneg|apply len_nonneg].
Qed.
