(** Properties C130 and C131: FLV tag bodies demuxed and handed to a TS Mixer, as a remuxing server does. *)
From Coq Require Import String.
From Verif Require Import Base.Go Base.GoFacts Base.IO Proofs.IOFacts Model.AmfTypes Model.Packet Model.Flv Model.Parsers Model.Crc32 Model.Ts
  Spec.Flv Spec.Crc32 Spec.Parsers Spec.Ts Proofs.Crc32 Proofs.Flv Proofs.Parsers Proofs.TsPackets Proofs.TsTables Proofs.TsMore Props.Flv Props.Parsers Props.Ts Props.TsMixer Spec.Mixer.
Import ListNotations.
Local Open Scope list_scope.
Local Open Scope Z_scope.
Local Ltac Zify.zify_post_hook ::= Z.div_mod_to_equations.

(** The calls a remuxer makes for one packet with time stamp ms: Demux; sequence headers are saved, frames are timed with
    Update and sent with Mux; what Demux rejects, and metadata, is skipped. *)
Definition remux (q : packet * Z) : list mix_op :=
  match demux (fst q) with
  | (p, Ok _) =>
      match p_header p with
      | Some (mkH (Some v) (Some a)) =>
          if p_type p =? 0 then if v_seq v then [XSaveAVC p] else [XUpdate p (snd q) (v_cts v); XMux p]
          else if p_type p =? 1 then if a_aac a && a_seq a then [XSaveAAC p] else [XUpdate p (snd q) 0; XMux p]
          else []
      | _ => []
      end
  | _ => []
  end.
Definition remuxed (l : list (packet * Z)) : list mix_op := flat_map remux l.

(** FLV bodies (Video File Format Specification, E.4.2 and E.4.3). *)
Definition avc_config (p : packet) (record : bytes) : Prop :=
  p_type p = 0 /\ exists b0 a b c, byte b0 /\ byte a /\ byte b /\ byte c /\ b0 / 16 = 1 /\ b0 mod 16 = 7 /\ p_data p = b0 :: 0 :: a :: b :: c :: record.
Definition avc_units (p : packet) (key : bool) (cts : Z) (nals : list bytes) : Prop :=
  p_type p = 0 /\ exists b0, byte b0 /\ b0 / 16 = (if key then 1 else 2) /\ b0 mod 16 = 7 /\ 0 <= cts < 2 ^ 24 /\ p_data p = b0 :: 1 :: be24 cts ++ avcc nals.
Definition aac_config (p : packet) (cfg : bytes) : Prop := p_type p = 1 /\ exists b0, byte b0 /\ b0 / 16 = 10 /\ p_data p = b0 :: 0 :: cfg.
Definition aac_raw (p : packet) (raw : bytes) : Prop := p_type p = 1 /\ exists b0, byte b0 /\ b0 / 16 = 10 /\ p_data p = b0 :: 1 :: raw.
Definition body_ok (q : packet * Z) : Prop := is_bytes (p_data (fst q)).
Definition no_avc_config (q : packet * Z) : Prop := forall r, ~ avc_config (fst q) r.
Definition no_aac_config (q : packet * Z) : Prop := forall r, ~ aac_config (fst q) r.

(** ** What a body is turned into *)
Lemma demux_ok p p' : is_bytes (p_data p) -> demux p = (p', Ok tt) -> exists v a m, demuxes (p_type p) (p_data p) v a m /\
  p' = mkP (p_type p) (p_ts p) (p_base p) (p_stream p) (Some (mkH (Some v) (Some a))) (p_data p) (Some m).
Proof. intros HB E. pose proof (C04_demux_exact p HB) as H. rewrite E in H. exact H. Qed.
Lemma remux_cases q : body_ok q -> remux q = [] \/ exists v a m, demuxes (p_type (fst q)) (p_data (fst q)) v a m /\
  let p := mkP (p_type (fst q)) (p_ts (fst q)) (p_base (fst q)) (p_stream (fst q)) (Some (mkH (Some v) (Some a))) (p_data (fst q)) (Some m) in
  demux (fst q) = (p, Ok tt) /\
  remux q = (if p_type p =? 0 then if v_seq v then [XSaveAVC p] else [XUpdate p (snd q) (v_cts v); XMux p]
             else if p_type p =? 1 then if a_aac a && a_seq a then [XSaveAAC p] else [XUpdate p (snd q) 0; XMux p] else []).
Proof.
  destruct q as [p ms]. unfold body_ok, remux. cbn [fst snd]. intros HB. pose proof (C04_demux_exact p HB) as H.
  destruct (demux p) as [p' [[]|e| |]]; [|left; reflexivity|contradiction|contradiction]. right. destruct H as (v & a & m & HD & ->). exists v, a, m. split; [exact HD|]. cbn [p_header p_type]. split; reflexivity.
Qed.
(** The packet of a body of known form. *)
Lemma remux_is q v a m : body_ok q -> demuxes (p_type (fst q)) (p_data (fst q)) v a m ->
  (forall v' a' m', demuxes (p_type (fst q)) (p_data (fst q)) v' a' m' -> m' = m /\ (p_type (fst q) = 0 -> v' = v) /\ (p_type (fst q) = 1 -> a' = a)) ->
  exists v' a', (p_type (fst q) = 0 -> v' = v) /\ (p_type (fst q) = 1 -> a' = a) /\
  let p := mkP (p_type (fst q)) (p_ts (fst q)) (p_base (fst q)) (p_stream (fst q)) (Some (mkH (Some v') (Some a'))) (p_data (fst q)) (Some m) in
  demux (fst q) = (p, Ok tt) /\
  remux q = (if p_type p =? 0 then if v_seq v' then [XSaveAVC p] else [XUpdate p (snd q) (v_cts v'); XMux p]
             else if p_type p =? 1 then if a_aac a' && a_seq a' then [XSaveAAC p] else [XUpdate p (snd q) 0; XMux p] else []).
Proof.
  destruct q as [p ms]. unfold body_ok. cbn [fst snd]. intros HB HD HU. pose proof (C04_demux_exact p HB) as H. unfold remux. cbn [fst snd].
  destruct (demux p) as [p' [[]|e| |]]; [|destruct H as (_ & H); destruct (H _ _ _ HD)|contradiction|contradiction]. destruct H as (v' & a' & m' & HD' & ->). destruct (HU _ _ _ HD') as (-> & H1 & H2).
  exists v', a'. split; [exact H1|]. split; [exact H2|]. cbn [p_header p_type]. split; reflexivity.
Qed.
Lemma be24_val_be24 c : 0 <= c < 16777216 -> be24_val (u8 (c / 65536)) (u8 (c / 256)) (u8 c) = c.
Proof. unfold be24_val, u8. intros. lia. Qed.
Lemma remux_config p ms r : is_bytes (p_data p) -> avc_config p r -> exists p', remux (p, ms) = [XSaveAVC p'] /\ route_of p' = RAvc true r.
Proof.
  intros HB (HT & b0 & a & b & c & B0 & B1 & B2 & B3 & E1 & E2 & ED).
  destruct (remux_is (p, ms) (mkVH true false true false true 7 0) (mkAH 0 0 false false false) r) as (v' & a' & H1 & _ & _ & H3); [exact HB| | |].
  - cbn [fst]. rewrite ED, HT. pose proof (Dx_video 0 b0 0 a b c r (mkAH 0 0 false false false) eq_refl (or_introl E1)) as X. rewrite E1, E2 in X. exact X.
  - cbn [fst]. rewrite ED, HT. intros v' a' m' H. inversion H; subst; try congruence; try lia. rewrite E1, E2. split; [reflexivity|]. split; [|intros X; discriminate X]. intros _. reflexivity.
  - cbn [fst snd p_type] in *. specialize (H1 HT). subst v'. rewrite HT in H3. cbn [Z.eqb v_seq] in H3. eexists. split; [exact H3|]. reflexivity.
Qed.
Lemma remux_units p ms key cts nals : is_bytes (p_data p) -> avc_units p key cts nals ->
  exists p', remux (p, ms) = [XUpdate p' ms cts; XMux p'] /\ route_of p' = RAvc false (avcc nals) /\ frame p' 0x100 key /\ p_type p' = 0.
Proof.
  intros HB (HT & b0 & B0 & E1 & E2 & HC & ED). change (2 ^ 24) with 16777216 in *. pose proof (be24_val_be24 cts HC) as EV. unfold be24 in ED, EV. cbn [app] in ED, EV.
  revert ED EV. generalize (u8 (cts / 65536)) (u8 (cts / 256)) (u8 cts). intros a b c ED EV.
  destruct (remux_is (p, ms) (mkVH key (negb key) false false true 7 cts) (mkAH 0 0 false false false) (avcc nals)) as (v' & a' & H1 & _ & _ & H3); [exact HB| | |].
  - cbn [fst]. rewrite ED, HT. assert (E3 : b0 / 16 = 1 \/ b0 / 16 = 2) by (destruct key; auto). pose proof (Dx_video 0 b0 1 a b c (avcc nals) (mkAH 0 0 false false false) eq_refl E3) as X. rewrite E1, E2 in X. change (1 =? 1) with true in X. cbv iota in X. rewrite EV in X. destruct key; exact X.
  - cbn [fst]. rewrite ED, HT. intros v' a' m' H. inversion H; subst; try congruence; try (destruct key; lia). rewrite E1, E2. split; [reflexivity|]. split; [|intros X; discriminate X]. intros _. change (1 =? 1) with true. cbv iota. destruct key; reflexivity.
  - cbn [fst snd p_type] in *. specialize (H1 HT). subst v'. rewrite HT in H3. cbn [Z.eqb v_seq v_cts] in H3. eexists. split; [exact H3|]. split; [reflexivity|]. split; [|reflexivity]. right. split; [reflexivity|]. split; [reflexivity|]. eexists. split; reflexivity.
Qed.
Lemma remux_aac_config p ms r : is_bytes (p_data p) -> aac_config p r -> exists p', remux (p, ms) = [XSaveAAC p'] /\ route_of p' = RAac 0 r.
Proof.
  intros HB (HT & b0 & B0 & E1 & ED).
  destruct (remux_is (p, ms) (mkVH true false true false true 7 0) (mkAH 10 0 true false true) r) as (v' & a' & _ & H1 & _ & H3); [exact HB| | |].
  - cbn [fst]. rewrite ED, HT. exact (Dx_aac 1 b0 0 r _ eq_refl E1).
  - cbn [fst]. rewrite ED, HT. intros v' a' m' H. inversion H; subst; try congruence; try lia. split; [reflexivity|]. split; [intros X; discriminate X|]. intros _. reflexivity.
  - cbn [fst snd p_type] in *. specialize (H1 HT). subst a'. rewrite HT in H3. cbn [Z.eqb a_aac a_seq andb] in H3. eexists. split; [exact H3|]. reflexivity.
Qed.
Lemma remux_raw p ms r : is_bytes (p_data p) -> aac_raw p r ->
  exists p', remux (p, ms) = [XUpdate p' ms 0; XMux p'] /\ route_of p' = RAac 1 r /\ frame p' 0x101 false /\ p_type p' = 1.
Proof.
  intros HB (HT & b0 & B0 & E1 & ED).
  destruct (remux_is (p, ms) (mkVH true false true false true 7 0) (mkAH 10 1 true false false) r) as (v' & a' & _ & H1 & _ & H3); [exact HB| | |].
  - cbn [fst]. rewrite ED, HT. exact (Dx_aac 1 b0 1 r _ eq_refl E1).
  - cbn [fst]. rewrite ED, HT. intros v' a' m' H. inversion H; subst; try congruence; try lia. split; [reflexivity|]. split; [intros X; discriminate X|]. intros _. reflexivity.
  - cbn [fst snd p_type] in *. specialize (H1 HT). subst a'. rewrite HT in H3. cbn [Z.eqb a_aac a_seq andb] in H3. eexists. split; [exact H3|]. split; [reflexivity|]. split; [|reflexivity]. left. repeat split.
Qed.

(** The parser calls of a history of bodies. *)
Lemma remuxed_app a b : remuxed (a ++ b) = remuxed a ++ remuxed b. Proof. apply flat_map_app. Qed.
Lemma avc_ops_app a b : avc_ops (a ++ b) = avc_ops a ++ avc_ops b. Proof. apply flat_map_app. Qed.
Lemma remux_route q : body_ok q -> exists o, avc_ops (parsed (remux q)) = o /\ Forall (fun x => is_bytes (fst (fst x))) o /\ (no_avc_config q -> Forall (fun x => snd (fst x) = false) o) /\
  (no_aac_config q -> Forall no_config (aac_ops (parsed (remux q)))).
Proof.
  intros HB. destruct (remux_cases q HB) as [->|(v & a & m & HD & _ & ->)]; [exists []; repeat split; constructor|]. destruct q as [p ms]. unfold body_ok, no_avc_config, no_aac_config, avc_config, aac_config in *. cbn [fst snd p_type] in *.
  eexists. split; [reflexivity|]. destruct p as [ty ts bs st hd data md]. cbn [p_type p_data p_ts p_base p_stream] in *.
  destruct HD as [b0 b1 b2 b3 b4 m a -> Hf|b0 m a -> Hf1 Hf2 HL|b0 b1 m v -> Hf|b0 m v -> Hf Hm|m v a ->]; cbn [v_seq v_cts a_aac a_seq]; change (0 =? 0) with true; change (1 =? 0) with false; change (1 =? 1) with true; cbv iota.
  - inversion HB as [|? ? B0 HB1]; subst. inversion HB1 as [|? ? B1 HB2]; subst. inversion HB2 as [|? ? B2 HB3]; subst. inversion HB3 as [|? ? B3 HB4]; subst. inversion HB4 as [|? ? B4 HB5]; subst.
    destruct ((b0 / 16 =? 1) && (b1 =? 0)) eqn:ES; cbn [parsed flat_map app avc_ops aac_ops fst snd]; unfold route_of; cbn [p_header p_media p_type h_video v_avc v_seq].
    + change (0 =? PktVideo) with true. cbv iota. destruct (b0 mod 16 =? 7) eqn:E7; [|repeat split; constructor]. split; [repeat constructor; exact HB5|]. split; [|constructor].
      intros HN. destruct (HN m). split; [reflexivity|]. exists b0, b2, b3, b4. repeat (split; [first [assumption|lia]|]). repeat f_equal. lia.
    + change (0 =? PktVideo) with true. cbv iota. destruct (b0 mod 16 =? 7); [|repeat split; constructor]. split; [repeat constructor; exact HB5|]. split; [|constructor]. intros _. repeat constructor.
  - apply Forall_inv_tail in HB. cbn [parsed flat_map app avc_ops aac_ops fst snd]; unfold route_of; cbn [p_header p_media p_type h_video v_avc v_seq].
    change (0 =? PktVideo) with true. cbv iota. destruct (b0 mod 16 =? 7); [|repeat split; constructor]. split; [repeat constructor; exact HB|]. split; [|constructor]. intros _. repeat constructor.
  - inversion HB as [|? ? B0 HB1]; subst. inversion HB1 as [|? ? B1 HB2]; subst.
    destruct (Z.eqb_spec b1 0) as [->|HZ]; cbn [andb parsed flat_map app avc_ops aac_ops fst snd]; unfold route_of; cbn [p_header p_media p_type h_audio a_aac a_aactype];
      change (1 =? PktVideo) with false; change (1 =? PktAudio) with true; cbv iota; (split; [constructor|]); (split; [constructor|]).
    + intros HN. destruct (HN m). split; [reflexivity|]. exists b0. auto.
    + intros _. constructor; [left; exact HZ|constructor].
  - cbn [andb parsed flat_map app avc_ops aac_ops fst snd]; unfold route_of; cbn [p_header p_media p_type h_audio a_aac a_mp3 a_aactype]. change (1 =? PktVideo) with false; change (1 =? PktAudio) with true; cbv iota. repeat split; constructor.
  - repeat split; constructor.
Qed.
Lemma routes_all l : Forall body_ok l -> Forall (fun x => is_bytes (fst (fst x))) (avc_ops (parsed (remuxed l))) /\
  (Forall no_avc_config l -> Forall (fun x => snd (fst x) = false) (avc_ops (parsed (remuxed l)))) /\ (Forall no_aac_config l -> Forall no_config (aac_ops (parsed (remuxed l)))).
Proof.
  induction 1 as [|q l HB _ (I1 & I2 & I3)]; [repeat split; constructor|]. change (remuxed (q :: l)) with (remux q ++ remuxed l). rewrite parsed_app, avc_ops_app, aac_ops_app2. destruct (remux_route q HB) as (o & -> & H1 & H2 & H3).
  split; [apply Forall_app; auto|]. split; intros HF; inversion HF; subst; apply Forall_app; auto.
Qed.

(** ** C130 *)
(** The calls for one more body, from state x on: their results, and the bytes they write read back as one PES packet. *)
Definition remuxes_to (x : tsmix) (w : writer) (q : packet * Z) (pid : Z) (e : pes) : Prop :=
  exists x' w' out pkts, mix_run (x, w) (remux q) = (x', w', [Ok tt; Ok tt]) /\ w_out w' = w_out w ++ out /\ read_stream out = Some pkts /\
    Forall (fun q => ts_pid q = pid) pkts /\ read_pes (concat (map ts_payload pkts)) = Some e.
Lemma used_step x w o : mixer_used x -> mixer_used (fst (fst (mix_step (x, w) o))).
Proof.
  intros (os & w0 & w1 & rs & E).
  assert (G : forall os s x1 w1 rs, mix_run s os = (x1, w1, rs) -> forall w o, exists w2 rs2, mix_run s (os ++ [XSetWriter w; o]) = (fst (fst (mix_step (x1, w) o)), w2, rs2)).
  { clear. induction os as [|o1 os IH]; intros s x1 w1 rs E w o; cbn [mix_run app] in *.
    - inversion E; subst. change (mix_step (x1, w1) (XSetWriter w)) with (x1, w, Ok tt). cbv iota. destruct (mix_step (x1, w) o) as [[x2 w2] r]. eexists _, _. reflexivity.
    - destruct (mix_step s o1) as [s1 r1]. destruct (mix_run s1 os) as [[x2 w2] rs2] eqn:E2. inversion E; subst. destruct (IH _ _ _ _ E2 w o) as (w3 & rs3 & E3). rewrite E3. eexists _, _. reflexivity. }
  destruct (G _ _ _ _ _ E w o) as (w2 & rs2 & E2). exists (os ++ [XSetWriter w; o]), w0, w2, rs2. exact E2.
Qed.
Lemma remembers_media h c l : remembers h c -> Forall (fun o => snd (fst o) = false) l -> remembers (h ++ l) c.
Proof.
  intros H. induction l as [|[[b s] w] l IH] using rev_ind; intros HF; [rewrite app_nil_r; exact H|]. apply Forall_app in HF as [HF1 HF2]. apply Forall_inv in HF2. cbn in HF2. subst s.
  rewrite app_assoc. apply Rm_media. apply IH, HF1.
Qed.

(** After a sequence header, whatever else was remuxed before and after it, an H.264 body comes out as one PES packet
    with the Annex B conversion of its units and the times of the packet. *)
Theorem C130_remux_h264 : forall pre cfg post w0 x w rs r sps pps p ms key cts nals es,
  Forall body_ok (pre ++ cfg :: post) -> Forall no_avc_config (pre ++ post) -> avc_config (fst cfg) r -> header_of sps pps [] r ->
  mix_run (new_tsmix, w0) (remuxed (pre ++ cfg :: post)) = (x, w, rs) -> never_fails w ->
  is_bytes (p_data p) -> avc_units p key cts nals -> nals <> [] -> Forall good_nal nals -> Forall (fun n => is_supported n = true) nals ->
  (forall n ns, nals = n :: ns -> len n <> 1) -> 0 <= ms < 47721859 ->
  converts (annexb [sps; pps]) nals es -> (key = true -> 170 <= len es) ->
  exists e, remuxes_to x w (p, ms) 0x100 e /\ pes_sid e = 0xe0 /\ option_map snd (pes_pts e) = Some (90 * (ms + cts)) /\
    option_map snd (pes_dts e) = (if cts =? 0 then None else Some (90 * ms)) /\ pes_payload e = es.
Proof.
  intros pre cfg post w0 x w rs r sps pps p ms key cts nals es HB HN HC HR E HW HBp HU Hne HG HS H1 Hms HCv HK.
  assert (Hx : mixer_used x) by (eexists _, _, _, _; exact E).
  assert (Hrem : remembers (avc_ops (parsed (remuxed (pre ++ cfg :: post)))) (annexb [sps; pps]) /\ Forall (fun x => is_bytes (fst (fst x))) (avc_ops (parsed (remuxed (pre ++ cfg :: post))))).
  { split; [|apply (routes_all _ HB)]. apply Forall_app in HB as [HB1 HB2]. apply Forall_app in HN as [HN1 HN2]. inversion HB2 as [|? ? HBc HB3]; subst. destruct cfg as [pc mc]. destruct (remux_config pc mc r HBc HC) as (p' & E1 & E2).
    change (pre ++ (pc, mc) :: post) with (pre ++ [(pc, mc)] ++ post). rewrite !remuxed_app, !parsed_app, !avc_ops_app. change (remuxed [(pc, mc)]) with (remux (pc, mc) ++ []). rewrite E1. cbn [app parsed flat_map]. change (avc_ops [(p', buffer0)]) with (match route_of p' with RAvc s m => [(m, s, buffer0)] | _ => [] end ++ []). rewrite E2. cbn [app].
    change (avc_ops (parsed (remuxed pre)) ++ (r, true, buffer0) :: avc_ops (parsed (remuxed post))) with (avc_ops (parsed (remuxed pre)) ++ [(r, true, buffer0)] ++ avc_ops (parsed (remuxed post))). rewrite app_assoc.
    apply remembers_media; [|apply (routes_all _ HB3), HN2]. change (annexb [sps; pps]) with ([] ++ annexb [sps; pps]). rewrite <- (app_nil_r (annexb [sps; pps])). apply Rm_header; [|exact HR].
    apply (remembers_media [] []); [constructor|]. apply (routes_all _ HB1), HN1. }
  destruct Hrem as [Hrem HBo]. destruct (remux_units p ms key cts nals HBp HU) as (p' & ER & HRt & HF & HT).
  pose proof (mix_run_codec (remuxed (pre ++ cfg :: post)) new_tsmix w0) as HCd. rewrite E in HCd. cbn [fst x_codec new_tsmix] in HCd. change (mix_packets (remuxed (pre ++ cfg :: post))) with (parsed (remuxed (pre ++ cfg :: post))) in HCd.
  destruct (codec_run_state (parsed (remuxed (pre ++ cfg :: post))) new_codec) as (EA & _ & _). rewrite <- HCd in EA. change (or_new (cp_h264 new_codec) new_h264) with new_h264 in EA.
  destruct (C21_avcc_to_annexb _ _ _ nals buffer0 (conj HBo (eq_sym EA)) Hrem Hne HG HS H1) as (q' & wc & out' & EP & EW & EC); [intros n; reflexivity|].
  cbn [w_out buffer0 app] in EW. assert (out' = es) as -> by (eapply C21_conversion_unique; eassumption).
  assert (ECd : exists c, codec_parse (x_codec x) p' buffer0 = (c, (wc, Ok tt))). { rewrite codec_parse_route, HRt, EP. eexists. reflexivity. }
  destruct ECd as (c & ECd). destruct HU as (_ & b0 & _ & _ & _ & Hcts & _). change (2 ^ 24) with 16777216 in Hcts.
  destruct (C105_update_then_mux x p' p' ms cts key w c wc Hx HT) as (e & EM & P1 & P2 & P3); try assumption; try lia; [rewrite EW; intros HKey; specialize (HK HKey); lia|].
  exists e. rewrite EW in P3. split; [|split; [|split; [exact P1|split; [exact P2|exact P3]]]].
  - destruct EM as (x' & p2 & w' & out & pkts & EMx & EWo & ES & EPid & EPes). exists x', w', out, pkts. rewrite ER. cbn [mix_run mix_step]. destruct (mix_update x p' ms cts) as [xu ru] eqn:EU. cbn [fst] in EMx. cbn [mix_step]. rewrite EMx.
    assert (ru = Ok tt) as ->. { unfold mix_update in EU. rewrite HT in EU. change (0 =? PktVideo) with true in EU. cbv iota in EU. congruence. }
    split; [reflexivity|]. auto.
  - destruct (mixer_pes_ok (fst (mix_update x p' ms cts)) p' 0x100 key w c wc) as (n & EM2); [..|rewrite EW; intros HKey; specialize (HK HKey); lia|].
    + pose proof (used_step x w (XUpdate p' ms cts) Hx) as X. cbn [mix_step] in X. destruct (mix_update x p' ms cts). exact X.
    + exact HF.
    + exact HW.
    + unfold mix_update. rewrite HT. change (0 =? PktVideo) with true. cbv iota. exact ECd.
    + destruct EM as (x1 & p1 & v1 & o1 & k1 & A1 & A2 & A3 & A4 & A5). destruct EM2 as (x2 & p2 & v2 & o2 & k2 & B1 & B2 & B3 & B4 & B5). rewrite A1 in B1. injection B1 as <- <- <-. rewrite A2 in B2. apply app_inv_head in B2. subst o2. rewrite A3 in B3. injection B3 as <-. rewrite A5 in B5. injection B5 as ->. cbn [pes_sid]. rewrite HT. reflexivity.
Qed.
Print Assumptions C130_remux_h264.

(** After an AudioSpecificConfig, and no later one, a raw AAC body comes out as one PES packet with an ADTS frame, at a
    time within 10 ms of the packet's. *)
Theorem C130_remux_aac : forall pre cfg post w0 x w rs c0 c1 more ot i ch p ms raw,
  Forall body_ok (pre ++ cfg :: post) -> Forall no_aac_config post -> aac_config (fst cfg) (c0 :: c1 :: more) ->
  config_bits c0 c1 = (ot, i, ch) -> 1 <= ot <= 4 -> i <= 12 -> ch <= 7 ->
  mix_run (new_tsmix, w0) (remuxed (pre ++ cfg :: post)) = (x, w, rs) -> never_fails w ->
  is_bytes (p_data p) -> aac_raw p raw -> 1 <= len raw <= 8184 -> 0 <= ms < 47721859 ->
  exists e header t, remuxes_to x w (p, ms) 0x101 e /\ pes_sid e = 0xc0 /\ pes_pts e = Some (2, t) /\ Z.abs (t - 90 * ms) <= 900 /\ pes_dts e = None /\
    pes_payload e = header ++ raw /\ len header = 7 /\
    read_adts (header ++ raw) = Some (mkAdts 4095 0 0 1 (ot - 1) i 0 ch 0 0 0 0 (7 + len raw) 2047 0, raw).
Proof.
  intros pre cfg post w0 x w rs c0 c1 more ot i ch p ms raw HB HN HC Hcfg Ho Hi Hch E HW HBp HR HL Hms.
  assert (Hx : mixer_used x) by (eexists _, _, _, _; exact E).
  apply Forall_app in HB as [HB1 HB2]. inversion HB2 as [|? ? HBc HB3]; subst. destruct cfg as [pc mc]. destruct (remux_aac_config pc mc _ HBc HC) as (pc' & E1 & E2).
  destruct (remux_raw p ms raw HBp HR) as (p' & ER & HRt & HF & HT).
  assert (EX : remuxed (pre ++ (pc, mc) :: post) = remuxed pre ++ XSaveAAC pc' :: remuxed post).
  { change (pre ++ (pc, mc) :: post) with (pre ++ [(pc, mc)] ++ post). rewrite !remuxed_app. change (remuxed [(pc, mc)]) with (remux (pc, mc) ++ []). rewrite E1. reflexivity. }
  rewrite EX in E. assert (Bc : byte c0 /\ byte c1). { destruct HC as (_ & b0 & _ & _ & ED). unfold body_ok in HBc. cbn [fst] in *. rewrite ED in HBc. apply Forall_inv_tail, Forall_inv_tail in HBc. inversion HBc as [|? ? X1 X2]; subst. apply Forall_inv in X2. auto. }
  (* the codec: an AAC parser with that configuration *)
  assert (HRate : exists a, cp_aac (x_codec x) = Some a).
  { pose proof (mix_run_codec (remuxed pre ++ XSaveAAC pc' :: remuxed post) new_tsmix w0) as HCd. rewrite E in HCd. cbn [fst x_codec new_tsmix] in HCd.
    change (mix_packets (remuxed pre ++ XSaveAAC pc' :: remuxed post)) with (parsed (remuxed pre ++ [XSaveAAC pc'] ++ remuxed post)) in HCd. rewrite !parsed_app in HCd.
    destruct (codec_run_state (parsed (remuxed pre) ++ parsed [XSaveAAC pc'] ++ parsed (remuxed post)) new_codec) as (_ & EA & _). rewrite <- HCd, !aac_ops_app2 in EA.
    change (aac_ops (parsed [XSaveAAC pc'])) with (match route_of pc' with RAac t m => [(m, t, buffer0)] | _ => [] end ++ []) in EA. rewrite E2 in EA. destruct (aac_ops (parsed (remuxed pre))); cbn [app] in EA; eexists; exact EA. }
  destruct HRate as (a & HRate). destruct (C46_mixer_gap x p' ms 0 Hx HT) as (xu & ru & EU & _ & HG).
  assert (ru = Ok tt) as ->.
  { unfold mix_update in EU. rewrite HT in EU. change (1 =? PktVideo) with false in EU. change (1 =? PktAudio) with true in EU. cbv iota in EU. unfold codec_rate in EU. rewrite HRate in EU.
    destruct (mixer_ok x Hx) as (_ & HCk & HS & _). assert (ERt : codec_rate (x_codec x) = Ok (aac_sample_rate a)) by (unfold codec_rate; rewrite HRate; reflexivity). pose proof (codec_rate_range _ _ HCk ERt) as HRr.
    destruct (sync_step_bounded (x_sync x) (u32 (ms * 90)) (aac_sample_rate a) HS) as (s' & d & ES & _); [unfold u32; lia|lia|]. rewrite ES in EU. congruence. }
  destruct (HG eq_refl) as [G1 G2]. replace ((ms * 90) mod 2 ^ 32) with (90 * ms) in G1 by (change (2 ^ 32) with 4294967296; lia).
  assert (Erun : exists w2 rs2, mix_run (new_tsmix, w0) (remuxed pre ++ XSaveAAC pc' :: (remuxed post ++ [XUpdate p' ms 0])) = (xu, w2, rs2)).
  { assert (G : forall os s x1 w1 rs o, mix_run s os = (x1, w1, rs) -> exists w2 rs2, mix_run s (os ++ [o]) = (fst (fst (mix_step (x1, w1) o)), w2, rs2)).
    { clear. induction os as [|o1 os IH]; intros s x1 w1 rs o E; cbn [mix_run app] in *; [inversion E; subst; destruct (mix_step (x1, w1) o) as [[x2 w2] r]; eexists _, _; reflexivity|].
      destruct (mix_step s o1) as [s1 r1]. destruct (mix_run s1 os) as [[x2 w2] rs2] eqn:E2. inversion E; subst. destruct (IH _ _ _ _ o E2) as (w3 & rs3 & E3). rewrite E3. eexists _, _. reflexivity. }
    destruct (G _ _ _ _ _ (XUpdate p' ms 0) E) as (w2 & rs2 & E3). rewrite <- app_assoc in E3. cbn [app] in E3. exists w2, rs2. rewrite E3. cbn [mix_step]. rewrite EU. reflexivity. }
  destruct Erun as (w2 & rs2 & Erun).
  destruct (C103_aac_end_to_end (remuxed pre) (XSaveAAC pc') (remuxed post ++ [XUpdate p' ms 0]) w0 xu w2 rs2 pc' c0 c1 more ot i ch p' raw w Erun eq_refl E2 (proj1 Bc) (proj2 Bc) Hcfg Ho Hi Hch) as (e & header & EM & S1 & S2 & S3 & S4 & S5 & S6); try assumption.
  { rewrite parsed_app. change (parsed [XUpdate p' ms 0]) with (@nil (packet * writer)). rewrite app_nil_r. apply (routes_all _ HB3), HN. }
  exists e, header, (x_pts xu). split; [|rewrite G2 in *; auto 10]. destruct EM as (x' & p2 & w' & out & pkts & EMx & EWo & ES & EPid & EPes). exists x', w', out, pkts. rewrite ER. cbn [mix_run mix_step]. rewrite EU. cbn [mix_step]. rewrite EMx. split; [reflexivity|]. auto.
Qed.
Print Assumptions C130_remux_aac.

(** ** C131 *)
Definition answered {A} (r : res A) : Prop := (exists a, r = Ok a) \/ exists e, r = Err e.
Lemma codec_answers c p : route_of p <> RNoIface -> (forall s m, route_of p = RAvc s m -> is_bytes m) -> answered (snd (snd (codec_parse c p buffer0))).
Proof.
  intros HI HM. rewrite codec_parse_route. destruct (route_of p) as [| |s m|t m|m] eqn:ER; [right; eexists; reflexivity|congruence| | |].
  - pose proof (h264_total (or_new (cp_h264 c) new_h264) m s buffer0 (HM _ _ eq_refl)) as H. destruct (h264_parse _ m s buffer0) as [h [w1 r]]. cbn [snd] in *. destruct H as [->|(e & ->)]; [left|right]; eauto.
  - unfold aac_parse. destruct (len m =? 0); [right; eexists; reflexivity|]. destruct (t =? 0).
    + unfold specific_info. destruct (len m <? 2); [right; eexists; reflexivity|]. cbn [snd]. destruct (_ =? 15); [right|left]; eexists; reflexivity.
    + destruct (t =? 1); [|right; eexists; reflexivity]. unfold add_adts. destruct (_ || _); [right; eexists; reflexivity|]. cbn [snd]. left. exists tt. reflexivity.
  - unfold mp3_parse. destruct (len m <? 3); [right; eexists; reflexivity|]. destruct (_ <? _); [left|right]; eexists; reflexivity.
Qed.
Lemma ts_answers m p dts pts w : tm_ok m -> can_mux p -> let r := snd (snd (ts_mux m p dts pts w)) in
  (answered r \/ r = Panic) /\ (r = Panic <-> is_key p = true /\ 176 <= len (mux_bytes p dts pts) <= 183).
Proof.
  intros HM HC. cbv zeta. destruct (is_key p && (176 <=? len (mux_bytes p dts pts)) && (len (mux_bytes p dts pts) <=? 183)) eqn:EB.
  - apply andb_prop in EB as [EB E3]. apply andb_prop in EB as [E1 E2]. destruct (ts_mux_panic m p dts pts w HM HC E1 ltac:(lia)) as (m' & -> & _). cbn [snd]. split; [right; reflexivity|]. split; [intros _; split; [exact E1|lia]|reflexivity].
  - assert (HN : ~ (is_key p = true /\ 176 <= len (mux_bytes p dts pts) <= 183)) by (intros [H1 H2]; rewrite H1 in EB; cbn [andb] in EB; lia).
    pose proof (ts_mux_ok m p dts pts w HM HC ltac:(intros HK HH; apply HN; auto)) as H. destruct (ts_mux m p dts pts w) as [m' wr]. destruct H as (-> & _). cbn [snd].
    destruct (run_plan_any (mux_packets m p dts pts) (Ok tt) w) as (w' & r' & E & _ & [(-> & _)|(-> & _)]); rewrite E; cbn [snd]; (split; [left; first [left; eexists; reflexivity|right; eexists; reflexivity]|]); (split; [discriminate|intros X; destruct (HN X)]).
Qed.
(** A key frame whose PES packet (header of 14 or, with a composition time, 19 bytes; then the converted media) has
    176 to 183 bytes. *)
Definition short_key (x : tsmix) (p : packet) : Prop :=
  p_type p = 0 /\ exists v c wc, video_of p = Some v /\ v_key v = true /\ codec_parse (x_codec x) p buffer0 = (c, (wc, Ok tt)) /\
    176 <= (if v_cts v =? 0 then 14 else 19) + len (w_out wc) <= 183.
Lemma mux_answers x p w : mix_inv x -> route_of p <> RNoIface -> (forall s m, route_of p = RAvc s m -> is_bytes m) ->
  let r := snd (snd (mix_mux x p w)) in
  (answered r \/ r = Panic) /\
  (r = Panic <-> is_key p = true /\ exists c wc, codec_parse (x_codec x) p buffer0 = (c, (wc, Ok tt)) /\ 176 <= pes_total (set_media (w_out wc) p) (x_dts x) (x_pts x) <= 183).
Proof.
  intros HI HR HB. cbv zeta. rewrite mux_result. pose proof (codec_answers (x_codec x) p HR HB) as HA. destruct (codec_parse (x_codec x) p buffer0) as [c [wc r]] eqn:EC. cbn [snd] in HA.
  destruct HA as [([] & ->)|(e & ->)].
  - pose proof (codec_accepts_can _ _ _ _ _ EC) as HC. destruct (ts_answers (x_muxer x) (set_media (w_out wc) p) (x_dts x) (x_pts x) w (proj1 HI)) as [H1 H2]; [apply set_media_can, HC|].
    destruct (ts_mux (x_muxer x) (set_media (w_out wc) p) (x_dts x) (x_pts x) w) as [k [w1 r]]. cbn [snd] in *. split; [exact H1|]. rewrite H2, set_media_key.
    rewrite total_len by (destruct HC as [HC|[HC _]]; [right|left]; exact HC). split; [intros [K1 K2]; split; [exact K1|]; eauto|]. intros (K1 & c2 & wc2 & K2 & K3). injection K2 as <- <-. auto.
  - cbn [snd]. split; [left; right; eexists; reflexivity|]. split; [discriminate|]. intros (_ & c2 & wc2 & K2 & _). discriminate.
Qed.
Lemma save_answers t x p : mix_inv x -> route_of p <> RNoIface -> (forall s m, route_of p = RAvc s m -> s = true /\ is_bytes m) -> (p_type p <> 0 \/ route_of p = RNone \/ exists m, route_of p = RAvc true m) ->
  answered (snd (mix_save_header t x p)).
Proof.
  intros HI HR HB HK. unfold mix_save_header, mix_parse. cbn [x_codec set_types]. pose proof (codec_answers (x_codec x) p HR ltac:(intros s m H; apply (HB s m H))) as HA.
  destruct (codec_parse (x_codec x) p buffer0) as [c [wc r]] eqn:EC. cbn [snd] in HA. destruct HA as [([] & ->)|(e & ->)]; [|right; eexists; reflexivity].
  pose proof (codec_accepts_can _ _ _ _ _ EC) as HC. cbn [x_muxer set_codec set_types]. destruct (ts_answers (x_muxer x) (set_media (w_out wc) p) 0 0 buffer0 (proj1 HI)) as [H1 H2]; [apply set_media_can, HC|].
  destruct (ts_mux (x_muxer x) (set_media (w_out wc) p) 0 0 buffer0) as [k [w1 r]]. cbn [snd] in *. destruct H1 as [H1|H1]; [exact H1|]. apply H2 in H1 as [K1 K2]. exfalso. rewrite set_media_key in K1.
  destruct HK as [HK|[HK|(m & HK)]].
  - unfold is_key in K1. change PktVideo with 0 in K1. destruct (Z.eqb_spec (p_type p) 0); [contradiction|discriminate].
  - rewrite codec_parse_route, HK in EC. discriminate.
  - rewrite codec_parse_route, HK in EC. destruct (HB _ _ HK) as [_ HBm]. unfold h264_parse in EC.
    assert (w_out wc = []) as EW.
    { destruct (len m =? 0); [discriminate|]. destruct (parse_specific_info (or_new (cp_h264 (x_codec x)) new_h264) m) as [h r1]. injection EC as _ <- _. reflexivity. }
    rewrite EW, total_len in K2 by (destruct HC as [HC|[HC _]]; [right|left]; exact HC). unfold pes_total in K2. change (len (media_of (set_media [] p))) with 0 in K2. destruct (_ && _) in K2; lia.
Qed.
Theorem C131_remux_panics_iff : forall l w0 x w rs q x' w' rs', Forall body_ok l -> mix_run (new_tsmix, w0) (remuxed l) = (x, w, rs) ->
  body_ok q -> mix_run (x, w) (remux q) = (x', w', rs') ->
  Forall (fun r => r = Ok tt \/ (exists e, r = Err e) \/ r = Panic) rs' /\
  (In Panic rs' <-> exists p, demux (fst q) = (p, Ok tt) /\ short_key x p).
Proof.
  intros l w0 x w rs q x' w' rs' _ E HB Eq. assert (Hx : mixer_used x) by (eexists _, _, _, _; exact E). pose proof (mixer_ok x Hx) as HI.
  assert (AN : forall r : res unit, answered r \/ r = Panic -> r = Ok tt \/ (exists e, r = Err e) \/ r = Panic).
  { intros r [[([] & ->)|H]|H]; auto. }
  destruct (remux_cases q HB) as [E0|(v & a & m & HD & EDx & E1)].
  - rewrite E0 in Eq. injection Eq as <- <- <-. split; [constructor|]. split; [contradiction|]. intros (p & ED & HT & v & c & wc & HV & HK & _). exfalso. destruct q as [p0 ms]. cbn [fst] in *. destruct (demux_ok p0 p HB ED) as (v' & a' & m' & HD & Ep).
    unfold remux in E0. cbn [fst] in E0. rewrite ED, Ep in E0. rewrite Ep in HT. cbn [p_header p_type] in *. rewrite HT in E0. change (0 =? 0) with true in E0. cbv iota in E0. destruct (v_seq v'); discriminate.
  - destruct q as [p0 ms]. unfold body_ok in HB. cbn [fst snd p_type] in *. set (p := mkP _ _ _ _ _ _ _) in *.
    assert (HI2 : route_of p <> RNoIface /\ (forall s m', route_of p = RAvc s m' -> is_bytes m' /\ s = v_seq v) /\ (p_type p0 = 0 -> route_of p = RNone \/ exists m, route_of p = RAvc (v_seq v) m)).
    { unfold route_of, p. cbn [p_header p_media p_type h_video h_audio]. change PktVideo with 0. change PktAudio with 1. split; [|split].
      - destruct (_ =? 0); [destruct (v_avc v); discriminate|]. destruct (_ =? 1); [|discriminate]. destruct (a_aac a); [discriminate|]. destruct (a_mp3 a); discriminate.
      - intros s m'. destruct (Z.eqb_spec (p_type p0) 0) as [HT|HT]; [|destruct (_ =? 1); [destruct (a_aac a); [discriminate|destruct (a_mp3 a); discriminate]|discriminate]]. destruct (v_avc v); [|discriminate]. intros X. injection X as <- <-. split; [|reflexivity].
        clear - HD HB. revert HB. unfold is_bytes. destruct HD; intros HB; repeat match goal with H : Forall _ (_ :: _) |- _ => apply Forall_inv_tail in H end; assumption.
      - intros ->. change (0 =? 0) with true. cbv iota. destruct (v_avc v); [right; eexists|left]; reflexivity. }
    destruct HI2 as (R1 & R2 & R3). assert (HP : forall p1, demux p0 = (p1, Ok tt) -> p1 = p) by (intros p1 X; congruence).
    change (p_type p) with (p_type p0) in E1.
    assert (NV : p_type p0 <> 0 -> forall x, ~ exists p, demux p0 = (p, Ok tt) /\ short_key x p). { intros HT y (p1 & X & HK). apply HP in X. subst p1. destruct HK as (X & _). apply HT. exact X. }
    destruct (Z.eqb_spec (p_type p0) 0) as [HT|HT].
    + destruct (v_seq v) eqn:ES; rewrite E1 in Eq; cbn [mix_run mix_step] in Eq.
      * destruct (mix_save_avc x p) as [[x1 p1] r1] eqn:EV. injection Eq as <- <- <-. assert (HA : answered r1).
        { change r1 with (snd (x1, p1, r1)). rewrite <- EV. apply save_answers; [exact HI|exact R1| |right; exact (R3 HT)]. intros s m' H. destruct (R2 _ _ H) as [H1 H2]. auto. }
        split; [constructor; [apply AN; left; exact HA|constructor]|]. split.
        -- intros [->|[]]. destruct HA as [(? & X)|(? & X)]; discriminate.
        -- intros (p2 & X & _ & v2 & c & wc & HV & HK & EC & HL). exfalso. apply HP in X. subst p2. destruct (R3 HT) as [RR|(m2 & RR)]; rewrite codec_parse_route, RR in EC; [discriminate|]. unfold h264_parse in EC.
           destruct (len m2 =? 0); [discriminate|]. destruct (parse_specific_info _ m2) as [h rr]. injection EC as _ <- _. change (len (w_out buffer0)) with 0 in HL. destruct (v_cts v2 =? 0); lia.
      * assert (EU : mix_update x p ms (v_cts v) = (set_times (u32 (ms * 90) + u32 (v_cts v * 90)) (u32 (ms * 90)) (x_sync x) x, Ok tt)). { unfold mix_update. change (p_type p) with (p_type p0). rewrite HT. reflexivity. }
        assert (Hxu : mix_inv (set_times (u32 (ms * 90) + u32 (v_cts v * 90)) (u32 (ms * 90)) (x_sync x) x)). { pose proof (mix_step_inv x w (XUpdate p ms (v_cts v)) HI) as X. cbn [mix_step] in X. rewrite EU in X. exact X. }
        rewrite EU in Eq. cbn [mix_step] in Eq. set (xu := set_times _ _ _ x) in *. destruct (mux_answers xu p w Hxu R1 ltac:(intros s m' H; apply (R2 s m' H))) as [M1 M2]. destruct (mix_mux xu p w) as [[x1 p1] [w1 r1]]. cbn [snd] in M1, M2. injection Eq as <- <- <-.
        split; [constructor; [left; reflexivity|]; constructor; [apply AN, M1|constructor]|].
        assert (HKey : is_key p = v_key v). { unfold is_key, video_of, p. cbn [p_type p_header h_video]. rewrite HT. reflexivity. }
        assert (HCts : 0 <= v_cts v < 16777216).
        { clear - HD HB HT. revert HB. destruct HD as [b0 b1 b2 b3 b4 m a _ Hf|b0 m a _ Hf1 Hf2 HL|b0 b1 m v T Hf|b0 m v T Hf Hm|m v a T]; intros HB; cbn [v_cts]; [|lia|lia|lia|lia].
          apply Forall_inv_tail, Forall_inv_tail in HB. inversion HB as [|? ? B2 HB3]; subst. inversion HB3 as [|? ? B3 HB4]; subst. apply Forall_inv in HB4. unfold byte in *. destruct (b1 =? 1); unfold be24_val; lia. }
        assert (HTot : forall wc : writer, pes_total (set_media (w_out wc) p) (x_dts xu) (x_pts xu) = (if v_cts v =? 0 then 14 else 19) + len (w_out wc)).
        { intros wc. unfold pes_total. change (p_type (set_media (w_out wc) p)) with (p_type p0). change (media_of (set_media (w_out wc) p)) with (w_out wc). rewrite HT. change (0 =? 0) with true. unfold xu. cbn [set_times x_dts x_pts]. unfold u32.
          destruct (Z.eqb_spec (v_cts v) 0) as [Z0|Z0]; [rewrite Z0; replace (_ =? _) with true by lia; reflexivity|]. replace (_ =? _) with false by lia. reflexivity. }
        split.
        -- intros [X|[X|[]]]; [discriminate|]. subst r1. destruct (proj1 M2 eq_refl) as (K1 & c & wc & K2 & K3). exists p. split; [exact EDx|]. split; [exact HT|]. exists v, c, wc. split; [reflexivity|]. split; [congruence|]. split; [exact K2|]. rewrite HTot in K3. exact K3.
        -- intros (p2 & X & _ & v2 & c & wc & HV & HK & EC & HL). apply HP in X. subst p2. injection HV as <-. right. left. apply M2. split; [congruence|]. exists c, wc. split; [exact EC|]. rewrite HTot. exact HL.
    + destruct (Z.eqb_spec (p_type p0) 1) as [HT1|HT1]; [|rewrite E1 in Eq; injection Eq as <- <- <-; split; [constructor|]; split; [contradiction|intros X; destruct (NV HT _ X)]].
      assert (NK : is_key p = false). { unfold is_key, p. cbn [p_type]. rewrite HT1. reflexivity. }
      assert (R4 : forall s m', route_of p <> RAvc s m'). { intros s m'. unfold route_of, p. cbn [p_header p_media p_type]. rewrite HT1. change (1 =? PktVideo) with false. change (1 =? PktAudio) with true. cbv iota. cbn [h_audio]. destruct (a_aac a); [discriminate|]. destruct (a_mp3 a); discriminate. }
      destruct (a_aac a && a_seq a) eqn:EAS; rewrite E1 in Eq; cbn [mix_run mix_step] in Eq.
      * destruct (mix_save_aac x p) as [[x1 p1] r1] eqn:EV. injection Eq as <- <- <-. assert (HA : answered r1).
        { change r1 with (snd (x1, p1, r1)). rewrite <- EV. apply save_answers; [exact HI|exact R1| |left; exact HT]. intros s m' H. destruct (R4 _ _ H). }
        split; [constructor; [apply AN; left; exact HA|constructor]|]. split; [|intros X; destruct (NV HT _ X)]. intros [->|[]]. destruct HA as [(? & X)|(? & X)]; discriminate.
      * destruct (C46_mixer_gap x p ms 0 Hx HT1) as (xu & ru & EU & HU & _). pose proof (mix_step_inv x w (XUpdate p ms 0) HI) as Hxu. cbn [mix_step] in Hxu. rewrite EU in Hxu, Eq. cbn [fst mix_step] in *.
        assert (HRu : ru = Ok tt \/ (exists e, ru = Err e)). { unfold mix_update in EU. change (p_type p) with (p_type p0) in EU. rewrite HT1 in EU. change (1 =? PktVideo) with false in EU. change (1 =? PktAudio) with true in EU. cbv iota in EU.
          destruct (codec_rate (x_codec x)) as [rate|e| |] eqn:ER; [destruct (sync_audio _ _ rate) as [[s' d]|e| |]; injection EU as _ <-; try (left; reflexivity); congruence|injection EU as _ <-; right; eexists; reflexivity|exfalso; unfold codec_rate in ER; destruct (cp_aac (x_codec x)), (cp_mp3 (x_codec x)); discriminate|exfalso; unfold codec_rate in ER; destruct (cp_aac (x_codec x)), (cp_mp3 (x_codec x)); discriminate]. }
        destruct (mux_answers xu p w Hxu R1 ltac:(intros s m' H; apply (R2 s m' H))) as [M1 M2]. destruct (mix_mux xu p w) as [[x1 p1] [w1 r1]]. cbn [snd] in M1, M2. injection Eq as <- <- <-.
        split; [constructor; [tauto|]; constructor; [apply AN, M1|constructor]|]. split; [|intros X; destruct (NV HT _ X)]. intros [X|[X|[]]]; [contradiction|]. apply M2 in X as [X _]. congruence.
Qed.
Print Assumptions C131_remux_panics_iff.

Definition body (ty : Z) (d : bytes) : packet := mkP ty 0 0 0 None d None.
Definition ex_cfg : packet * Z := (body 0 ([0x17; 0; 0; 0; 0] ++ ex_header ex_sps ex_pps []), 0).
Definition ex_aac_cfg : packet * Z := (body 1 [0xaf; 0; 0x12; 0x10], 0).
Definition ex_unit (key : bool) (cts : Z) (n : bytes) : packet := body 0 ((if key then 0x17 else 0x27) :: 1 :: be24 cts ++ avcc [n]).
Lemma bytes_dec l : forallb (fun b => (0 <=? b) && (b <? 256)) l = true -> is_bytes l.
Proof. intros H. rewrite forallb_forall in H. apply Forall_forall. intros b Hb. specialize (H b Hb). unfold byte. lia. Qed.
(** A history with both sequence headers, undemuxable bodies and frames; then an H.264 and an AAC frame. *)
Definition ex_history : list (packet * Z) := [(body 0 [1], 0); ex_aac_cfg] ++ ex_cfg :: [(body 1 [0xaf; 1; 7; 7], 23); (ex_unit false 40 ex_slice, 40)].
Example C130_example : Forall body_ok ex_history /\ Forall no_avc_config ([(body 0 [1], 0); ex_aac_cfg] ++ [(body 1 [0xaf; 1; 7; 7], 23); (ex_unit false 40 ex_slice, 40)]) /\
  avc_config (fst ex_cfg) (ex_header ex_sps ex_pps []) /\ header_of ex_sps ex_pps [] (ex_header ex_sps ex_pps []) /\
  aac_config (fst ex_aac_cfg) [0x12; 0x10] /\ config_bits 0x12 0x10 = (2, 4, 2) /\
  avc_units (ex_unit false 40 ex_slice) false 40 [ex_slice] /\ aac_raw (body 1 [0xaf; 1; 7; 7]) [7; 7] /\
  exists x w rs, mix_run (new_tsmix, buffer0) (remuxed ex_history) = (x, w, rs) /\ never_fails w /\ rs = [Ok tt; Ok tt; Ok tt; Ok tt; Ok tt; Ok tt].
Proof.
  split; [|split; [|split; [|split; [|split; [|split; [|split; [|split]]]]]]].
  - repeat (apply Forall_cons; [apply bytes_dec; vm_compute; reflexivity|]). constructor.
  - repeat (apply Forall_cons; [intros r (HT & b0 & a & b & c & _ & _ & _ & _ & _ & _ & ED); cbn in HT, ED; discriminate|]). constructor.
  - split; [reflexivity|]. exists 0x17, 0, 0, 0. unfold byte. repeat (split; [lia|]). reflexivity.
  - apply Hd_record; unfold len; cbn; lia.
  - split; [reflexivity|]. exists 0xaf. unfold byte. repeat (split; [lia|]). reflexivity.
  - reflexivity.
  - split; [reflexivity|]. exists 0x27. unfold byte. change (2 ^ 24) with 16777216. repeat (split; [lia|]). reflexivity.
  - split; [reflexivity|]. exists 0xaf. unfold byte. repeat (split; [lia|]). reflexivity.
  - destruct (mix_run (new_tsmix, buffer0) (remuxed ex_history)) as [[x w] rs] eqn:E. exists x, w, rs. split; [reflexivity|].
    assert (H : w_script w = (fun _ => None) /\ rs = [Ok tt; Ok tt; Ok tt; Ok tt; Ok tt; Ok tt]).
    { change w with (snd (fst (x, w, rs))). change rs with (snd (x, w, rs)) at 2. rewrite <- E. split; vm_compute; reflexivity. }
    destruct H as [H1 H2]. split; [intros n; rewrite H1; reflexivity|exact H2].
Qed.
(** The panic is real: a key frame with an IDR unit of 143 bytes after the sequence header. *)
Example C131_example : let q := (ex_unit true 0 (0x65 :: repeat 1 (Z.to_nat 142)), 0) in
  body_ok q /\ snd (mix_run (new_tsmix, buffer0) (remuxed [ex_cfg; q])) = [Ok tt; Ok tt; Panic].
Proof. split; [apply bytes_dec; vm_compute; reflexivity|]. vm_compute. reflexivity. Qed.

(** ** C132 *)
(** The frames a history sends: one per successful Mux, with the media the packet shows afterwards and the Mixer's times. *)
Fixpoint frames_sent (s : tsmix * writer) (os : list mix_op) : list sent_frame :=
  match os with
  | [] => []
  | o :: os' =>
      (match o with
       | XMux p => match mix_mux (fst s) p (snd s) with
                   | (_, p', (_, Ok _)) => [mkSent (p_type p) (keyed p) (x_pts (fst s)) (x_dts (fst s)) (media_of p')]
                   | _ => []
                   end
       | _ => []
       end) ++ frames_sent (fst (mix_step s o)) os'
  end.

Lemma units_after_plain cur l : Forall (fun q => ts_pusi q = false) l -> units_after cur l = [cur ++ concat (map ts_payload l)].
Proof. intros H. revert cur. induction H as [|q l Hq _ IH]; intros cur; cbn [units_after map concat]; [rewrite app_nil_r; reflexivity|]. rewrite Hq, IH, app_assoc. reflexivity. Qed.
Lemma units_after_app cur l q l' : ts_pusi q = true -> units_after cur (l ++ q :: l') = units_after cur l ++ units (q :: l').
Proof. intros H. revert cur. induction l as [|q0 l IH]; intros cur; cbn [app units_after units]; [rewrite H; reflexivity|]. destruct (ts_pusi q0); rewrite IH; reflexivity. Qed.
Lemma units_app l l' : match l' with [] => True | q :: _ => ts_pusi q = true end -> units (l ++ l') = units l ++ units l'.
Proof.
  intros H. destruct l' as [|q l']; [rewrite !app_nil_r; reflexivity|]. induction l as [|q0 l IH]; [reflexivity|]. cbn [app units]. destruct (ts_pusi q0); [|exact IH]. apply units_after_app, H.
Qed.
Lemma all_pes_app a b : forall ea eb, all_pes a = Some ea -> all_pes b = Some eb -> all_pes (a ++ b) = Some (ea ++ eb).
Proof.
  induction a as [|x a IH]; intros ea eb Ha Hb; cbn [all_pes app] in *; [injection Ha as <-; exact Hb|]. destruct (read_pes x) as [e|]; [|discriminate]. destruct (all_pes a) as [es|]; [|discriminate]. injection Ha as <-.
  rewrite (IH es eb eq_refl Hb). reflexivity.
Qed.
Definition starts (l : list tspkt) : Prop := match l with [] => True | q :: _ => ts_pusi q = true end.
Definition chunk (l : list tspkt) (fs : list sent_frame) : Prop :=
  starts (on_pid 0x100 l) /\ starts (on_pid 0x101 l) /\
  (exists es, all_pes (units (on_pid 0x100 l)) = Some es /\ Forall2 carries (of_type 0 fs) es) /\ (exists es, all_pes (units (on_pid 0x101 l)) = Some es /\ Forall2 carries (of_type 1 fs) es).
Lemma starts_app a b : starts a -> starts b -> starts (a ++ b). Proof. destruct a; [intros _ H; exact H|intros H _; exact H]. Qed.
Lemma chunk_app a b fa fb : chunk a fa -> chunk b fb -> chunk (a ++ b) (fa ++ fb).
Proof.
  intros (A1 & A2 & (ea & A3 & A4) & (ea' & A5 & A6)) (B1 & B2 & (eb & B3 & B4) & (eb' & B5 & B6)). unfold chunk, of_type. rewrite !on_pid_app, !filter_app.
  split; [apply starts_app; assumption|]. split; [apply starts_app; assumption|]. split.
  - exists (ea ++ eb). rewrite units_app by exact B1. split; [apply all_pes_app; assumption|apply Forall2_app; assumption].
  - exists (ea' ++ eb'). rewrite units_app by exact B2. split; [apply all_pes_app; assumption|apply Forall2_app; assumption].
Qed.
Lemma chunk_nil l : on_pid 0x100 l = [] -> on_pid 0x101 l = [] -> chunk l [].
Proof. intros H1 H2. unfold chunk. rewrite H1, H2. cbn. repeat split; try exact I; exists []; split; constructor. Qed.
Definition same_writer (o : mix_op) : Prop := match o with XSetWriter _ => False | _ => True end.
Definition long_keys (fs : list sent_frame) : Prop := Forall (fun f => sf_key f = true -> 170 <= len (sf_media f)) fs.
Lemma step_chunk x w o : mix_inv x -> same_writer o -> never_fails w -> long_keys (frames_sent (x, w) [o]) ->
  let '(x', w', r) := mix_step (x, w) o in
  r <> Panic -> exists out l, w_out w' = w_out w ++ out /\ never_fails w' /\ read_stream out = Some l /\ chunk l (frames_sent (x, w) [o]).
Proof.
  intros HI HQ HW HL. pose proof HI as (HM & _ & _ & HDts & HPts & _). unfold frames_sent in *. rewrite app_nil_r in *. cbn [fst snd] in *.
  assert (HNIL : forall x1 : tsmix, exists out l, w_out w = w_out w ++ out /\ never_fails w /\ read_stream out = Some l /\ chunk l []).
  { intros _. exists [], []. rewrite app_nil_r. split; [reflexivity|]. split; [exact HW|]. split; [reflexivity|apply chunk_nil; reflexivity]. }
  destruct o as [p|md|p|p| |p a b|w2]; try contradiction HQ; cbn [mix_step].
  - rewrite mux_result in *. destruct (codec_parse (x_codec x) p buffer0) as [c [wc r]] eqn:EC. destruct r as [[]| | |]; try (intros _; apply HNIL; exact x).
    pose proof (codec_accepts_can _ _ _ _ _ EC) as HC. set (q := set_media (w_out wc) p) in *. assert (HCq : can_mux q) by (apply set_media_can, HC).
    assert (HT : p_type q = PktVideo \/ p_type q = PktAudio) by (destruct HC as [H|[H _]]; [right|left]; exact H).
    destruct (ts_answers (x_muxer x) q (x_dts x) (x_pts x) w HM HCq) as [_ TP]. destruct (ts_mux (x_muxer x) q (x_dts x) (x_pts x) w) as [k [w1 r1]] eqn:EX. cbn [snd] in TP. intros Hr.
    destruct (mux_frame (x_muxer x) q (x_dts x) (x_pts x) w HM HCq) as (m' & w' & out & p0 & l & E & E1 & E2 & E3 & E4 & E5 & E6 & E7 & E8 & E9 & _).
    { intros HK HH. apply Hr, TP. auto. } { exact HW. }
    rewrite E in EX. injection EX as <- <- <-.
    assert (HKy : is_key q = keyed p). { unfold q. rewrite set_media_key. unfold is_key, keyed. destruct (video_of p) as [v|]; [reflexivity|]. destruct (p_type p =? PktVideo); reflexivity. }
    assert (HKl : is_key q && (len (mux_bytes q (x_dts x) (x_pts x)) <? 184) = false).
    { destruct (is_key q) eqn:EK; [|reflexivity]. apply Forall_inv in HL. cbn [sf_key sf_media] in HL. specialize (HL (eq_sym HKy)). rewrite total_len by exact HT. cbn [andb]. unfold pes_total. destruct ((p_type q =? 0) && negb (x_pts x =? x_dts x)); lia. }
    rewrite HKl in E9. cbn [app] in E9. exists out, (p0 :: l). split; [exact E1|]. split; [exact E2|]. split; [exact E3|].
    assert (HP : Forall (fun q => ts_pusi q = false) l) by (eapply Forall_impl; [|exact E8]; intros y (A & _); exact A).
    assert (HU : exists e, all_pes (units (p0 :: l)) = Some [e] /\ carries (mkSent (p_type p) (keyed p) (x_pts x) (x_dts x) (media_of q)) e).
    { cbn [units]. rewrite E6, units_after_plain by exact HP. change (ts_payload p0 ++ concat (map ts_payload l)) with (concat (map ts_payload (p0 :: l))). rewrite E9. cbn [all_pes]. unfold mux_bytes. rewrite read_pes_ok by exact HT. eexists. split; [reflexivity|].
      unfold carries. cbn [pes_sid pes_payload pes_pts pes_dts sf_type sf_media sf_pts sf_dts option_map snd]. rewrite !stamp_small by assumption. split; [reflexivity|]. split; [reflexivity|]. split; [reflexivity|]. unfold both_stamps. change PktVideo with 0. change (p_type q) with (p_type p). destruct ((p_type p =? 0) && negb (x_pts x =? x_dts x)); reflexivity. }
    destruct HU as (e & HU & HCr). unfold chunk, of_type. cbn [filter sf_type].
    assert (EPid : pid_of q = if p_type p =? 0 then 0x100 else 0x101) by (unfold pid_of, lo_of; change (p_type q) with (p_type p); change PktVideo with 0; destruct (p_type p =? 0); reflexivity).
    destruct HT as [HT|HT]; change (p_type q) with (p_type p) in HT; rewrite HT in *.
    + change (PktVideo =? 0) with true in *. change (PktVideo =? 1) with false. cbv iota in EPid |- *. rewrite EPid in E4. rewrite (on_pid_all 0x100) by exact E4. rewrite (on_pid_none 0x101 0x100) by (try lia; exact E4).
      split; [exact E6|]. split; [exact I|]. split; [exists [e]; split; [exact HU|exact (Forall2_cons _ _ HCr (Forall2_nil _))]|exists []; split; [reflexivity|constructor]].
    + change (PktAudio =? 0) with false in *. change (PktAudio =? 1) with true. cbv iota in EPid |- *. rewrite EPid in E4. rewrite (on_pid_all 0x101) by exact E4. rewrite (on_pid_none 0x100 0x101) by (try lia; exact E4).
      split; [exact I|]. split; [exact E6|]. split; [exists []; split; [reflexivity|constructor]|exists [e]; split; [exact HU|exact (Forall2_cons _ _ HCr (Forall2_nil _))]].
  - destruct (mix_save_metadata x md). intros _. apply HNIL. exact x.
  - destruct (mix_save_avc x p) as [[x1 p1] r1]. intros _. apply HNIL. exact x.
  - destruct (mix_save_aac x p) as [[x1 p1] r1]. intros _. apply HNIL. exact x.
  - rewrite set_header_tables. destruct (Z_le_dec (len (x_meta x)) 163) as [HLm|HLm].
    + destruct (tables_ok x HM HLm) as (k & s & a & b & ps & pa & pb & ba & bb & E & K & S1 & A1 & P1 & _). rewrite E. rewrite run_plan_ok by exact HW. cbn [fst].
      intros _. eexists _, _. split; [reflexivity|]. split; [exact HW|]. split.
      * cbn [concat]. rewrite app_nil_r. replace (s ++ a ++ b) with (s ++ a ++ b ++ []) by (rewrite app_nil_r; reflexivity). apply read_stream_cons; [eapply read_packet_len, S1|exact S1|]. apply read_stream_cons; [eapply read_packet_len, A1|exact A1|]. apply read_stream_cons; [eapply read_packet_len, P1|exact P1|]. reflexivity.
      * apply chunk_nil; reflexivity.
    + destruct (tables_panic x HM ltac:(lia)) as (k & E). rewrite E. cbn [bind]. intros H. congruence.
  - destruct (mix_update x p a b). intros _. apply HNIL. exact x.
Qed.
(** What a standard demultiplexer finds in the output of any history of calls: on the video PID the video frames, on
    the audio PID the audio frames, all of them, in order, with their media and times. *)
Theorem C132_stream_read_back : forall os x w x' w' rs, mixer_used x -> Forall same_writer os -> never_fails w ->
  mix_run (x, w) os = (x', w', rs) -> ~ In Panic rs -> long_keys (frames_sent (x, w) os) ->
  exists out vs aus, w_out w' = w_out w ++ out /\ demultiplex 0x100 out = Some vs /\ demultiplex 0x101 out = Some aus /\
    Forall2 carries (of_type 0 (frames_sent (x, w) os)) vs /\ Forall2 carries (of_type 1 (frames_sent (x, w) os)) aus.
Proof.
  intros os x w x' w' rs Hx HQ HW E HN HL.
  assert (G : forall os x w, mix_inv x -> Forall same_writer os -> never_fails w -> long_keys (frames_sent (x, w) os) ->
    let '(x', w', rs) := mix_run (x, w) os in ~ In Panic rs -> exists out l, w_out w' = w_out w ++ out /\ read_stream out = Some l /\ chunk l (frames_sent (x, w) os)).
  { clear. induction os as [|o os IH]; intros x w HI HQ HW HL; cbn [mix_run].
    - intros _. exists [], []. rewrite app_nil_r. split; [reflexivity|]. split; [reflexivity|]. apply chunk_nil; reflexivity.
    - assert (EF : frames_sent (x, w) (o :: os) = frames_sent (x, w) [o] ++ frames_sent (fst (mix_step (x, w) o)) os) by (cbn [frames_sent]; rewrite app_nil_r; reflexivity).
      rewrite EF in *. apply Forall_app in HL as [HL1 HL2]. inversion HQ as [|? ? Q1 Q2]; subst. pose proof (step_chunk x w o HI Q1 HW HL1) as H1. pose proof (mix_step_inv x w o HI) as HI1. destruct (mix_step (x, w) o) as [[x1 w1] r]. cbn [fst] in *.
      specialize (IH x1 w1 HI1 Q2). destruct (mix_run (x1, w1) os) as [[x2 w2] rs]. intros HN. cbn [In] in HN.
      destruct H1 as (o1 & l1 & A1 & A2 & A3 & A4); [intros ->; tauto|]. destruct (IH A2 HL2) as (o2 & l2 & B1 & B2 & B3); [tauto|].
      exists (o1 ++ o2), (l1 ++ l2). split; [rewrite B1, A1, app_assoc; reflexivity|]. split; [apply read_stream_app; assumption|]. apply chunk_app; assumption. }
  specialize (G os x w (mixer_ok x Hx) HQ HW HL). rewrite E in G. destruct (G HN) as (out & l & E1 & E2 & _ & _ & (vs & V1 & V2) & (aus & A1 & A2)).
  exists out, vs, aus. unfold demultiplex. rewrite E2. auto.
Qed.
Print Assumptions C132_stream_read_back.
(** Headers, tables, and frames of both kinds, all sent. *)
Example C132_example : let os := XHeader :: remuxed ex_history in
  Forall same_writer os /\ map (fun f => (sf_type f, sf_key f, sf_pts f, len (sf_media f))) (frames_sent (new_tsmix, buffer0) os) = [(1, false, 2070, 9); (0, false, 7200, 12)] /\
  snd (mix_run (new_tsmix, buffer0) os) = [Ok tt; Ok tt; Ok tt; Ok tt; Ok tt; Ok tt; Ok tt].
Proof. split; [repeat constructor|]. split; vm_compute; reflexivity. Qed.
