(** Properties C15 - C28, C100, C101: package parser. *)
From Verif Require Import Base.Go Base.GoFacts Base.IO Proofs.IOFacts Model.Packet Model.Parsers Spec.Parsers Proofs.Parsers Spec.Failed Proofs.IOFail.
Local Ltac Zify.zify_post_hook ::= Z.div_mod_to_equations.

(** ** AAC *)
(** An aac.Parser in use: made by NewParser, then any Parse calls on any writers. *)
Definition aac_used (h : list (bytes * Z * writer)) (p : aac) : Prop :=
  Forall (fun o => is_bytes (fst (fst o))) h /\ fst (aac_run new_aac h) = p.
(** A call that is not a sequence header of at least two bytes. *)
Definition no_config (o : bytes * Z * writer) : Prop := snd (fst o) <> 0 \/ len (fst (fst o)) < 2.

Lemma aac_run_app a : forall p b, aac_run p (a ++ b) =
  let '(p1, r1) := aac_run p a in let '(p2, r2) := aac_run p1 b in (p2, r1 ++ r2).
Proof.
  induction a as [|[[x t] w] a IH]; intros p b; cbn [app aac_run].
  - destruct (aac_run p b). reflexivity.
  - destruct (aac_parse p x t w) as [p1 r]. rewrite IH. destruct (aac_run p1 a) as [p2 r1]. destruct (aac_run p2 b). reflexivity.
Qed.
Lemma no_config_state p b t w : no_config (b, t, w) -> fst (aac_parse p b t w) = p.
Proof.
  unfold no_config, aac_parse. cbn [fst snd]. intros H. destruct (len b =? 0); [reflexivity|].
  destruct (t =? 0) eqn:E; [|destruct (t =? 1); reflexivity].
  unfold specific_info. replace (len b <? 2) with true by lia. reflexivity.
Qed.
Lemma no_config_run h : forall p, Forall no_config h -> fst (aac_run p h) = p.
Proof.
  induction h as [|[[b t] w] h IH]; intros p HF; cbn [aac_run]; [reflexivity|]. inversion HF; subst.
  pose proof (no_config_state p b t w H1) as H. destruct (aac_parse p b t w) as [p1 r]. cbn [fst] in H. subst p1.
  specialize (IH p H2). destruct (aac_run p h). exact IH.
Qed.
(** The state after a configuration and calls that are none. *)
Lemma last_some_snoc {A} (l : list (option A)) x : last_some (l ++ [x]) = match x with Some y => Some y | None => last_some l end.
Proof. induction l as [|y l IH]; cbn [app last_some]; [destruct x; reflexivity|]. rewrite IH. destruct x; [reflexivity|]. destruct (last_some l); reflexivity. Qed.
Lemma configured h b0 b1 cfg w0 h2 : byte b0 -> byte b1 -> Forall no_config h2 ->
  forall o i c, config_bits b0 b1 = (o, i, c) ->
  fst (aac_run new_aac (h ++ (b0 :: b1 :: cfg, 0, w0) :: h2)) = mkAac true o i c /\ cfg_ok (mkAac true o i c).
Proof.
  intros H0 H1 HF o i c HC. rewrite aac_run_app. destruct (aac_run new_aac h) as [p1 r1]. cbn [aac_run].
  assert (E : aac_parse p1 (b0 :: b1 :: cfg) 0 w0 = (mkAac true o i c, (w0, if i =? 15 then Err EOther else Ok tt)) /\ cfg_ok (mkAac true o i c)).
  { pose proof (specific_info_eq p1 b0 b1 cfg H0 H1) as H. rewrite HC in H. destruct H as (E & R1 & R2 & R3). unfold aac_parse.
    rewrite !len_cons. pose proof (len_nonneg cfg). replace (1 + (1 + len cfg) =? 0) with false by lia. change (0 =? 0) with true. cbv iota. rewrite E.
    split; [reflexivity|]. unfold cfg_ok. cbn. auto. }
  destruct E as [E Hc]. rewrite E. pose proof (no_config_run h2 (mkAac true o i c) HF) as Hr. destruct (aac_run (mkAac true o i c) h2). cbn [fst] in *. auto.
Qed.
Lemma raw_frame p frame w : frame <> [] -> ac_got p = true ->
  aac_parse p frame 1 w = (p, run_plan [adts_header p (len frame); frame] (Ok tt) w).
Proof.
  intros Hf Hg. unfold aac_parse, add_adts. assert (len frame =? 0 = false) as -> by (destruct frame; [congruence|rewrite len_cons; pose proof (len_nonneg frame); lia]).
  change (1 =? 0) with false. change (1 =? 1) with true. cbv iota. rewrite Hg. cbn [orb negb]. f_equal.
  apply (planned_bind _ _ [_] tt [frame] (Ok tt)); apply planned_write.
Qed.

(** ** C15 *)
Theorem C15_adts_header : forall h b0 b1 cfg w0 h2 o i c frame w,
  byte b0 -> byte b1 -> Forall no_config h2 -> config_bits b0 b1 = (o, i, c) ->
  1 <= o <= 4 -> i <= 12 -> c <= 7 -> 1 <= len frame <= 8184 -> never_fails w ->
  let p := fst (aac_run new_aac (h ++ (b0 :: b1 :: cfg, 0, w0) :: h2)) in
  exists header w', aac_parse p frame 1 w = (p, (w', Ok tt)) /\ w_out w' = w_out w ++ header ++ frame /\ len header = 7 /\
    read_adts (header ++ frame) =
      Some ({| ad_sync := 4095; ad_id := 0; ad_layer := 0; ad_noprot := 1; ad_profile := o - 1; ad_rate := i; ad_private := 0; ad_chan := c;
               ad_orig := 0; ad_home := 0; ad_cid := 0; ad_cstart := 0; ad_length := 7 + len frame; ad_fullness := 2047; ad_blocks := 0 |}, frame).
Proof.
  intros h b0 b1 cfg w0 h2 o i c frame w B0 B1 HF HC Ho Hi Hc Hl Hw p.
  destruct (configured h b0 b1 cfg w0 h2 B0 B1 HF o i c HC) as [Ep Hok]. subst p. rewrite Ep.
  assert (Hne : frame <> []) by (intros ->; unfold len in Hl; cbn in Hl; lia).
  rewrite raw_frame by (exact Hne || reflexivity). rewrite run_plan_ok by exact Hw.
  exists (adts_header (mkAac true o i c) (len frame)). eexists. split; [reflexivity|]. cbn [w_out concat]. rewrite app_nil_r.
  split; [reflexivity|]. split; [reflexivity|].
  rewrite read_adts_header; [|exact Hok|lia]. cbn [ac_object ac_rate ac_chan]. destruct Hok as (_ & _ & Hc0). cbn in Hc0.
  apply adts_eq; lia.
Qed.
Print Assumptions C15_adts_header.
Example C15_example : config_bits 0x12 0x10 = (2, 4, 2). Proof. reflexivity. Qed.

(** ** C16 *)
(** What the header carries on every success. *)
Theorem C16_header_fields_partial : forall h p frame w w', aac_used h p -> frame <> [] ->
  aac_parse p frame 1 w = (p, (w', Ok tt)) ->
  exists o i c header rest, (0 <= o < 32 /\ 0 <= i < 16 /\ 0 <= c < 16) /\
    (exists h1 b0 b1 cfg w0 h2, h = h1 ++ (b0 :: b1 :: cfg, 0, w0) :: h2 /\ config_bits b0 b1 = (o, i, c) /\ Forall no_config h2) /\
    w_out w' = w_out w ++ header ++ frame /\
    read_adts header = Some (mkAdts 4095 0 0 1 ((o - 1) mod 4) i (c / 8) (c mod 8) 0 0 0 0 ((7 + len frame) mod 8192) 2047 0, rest).
Proof.
  intros h p frame w w' [HB Hp] Hne E.
  assert (HX : (Forall no_config h /\ ac_got p = false) \/ exists h1 b0 b1 cfg w0 h2, h = h1 ++ (b0 :: b1 :: cfg, 0, w0) :: h2 /\ byte b0 /\ byte b1 /\ Forall no_config h2).
  { assert (HD : Forall no_config h \/ exists h1 b0 b1 cfg w0 h2, h = h1 ++ (b0 :: b1 :: cfg, 0, w0) :: h2 /\ byte b0 /\ byte b1 /\ Forall no_config h2).
    { clear - HB. induction h as [|[[b t] w0] h IH]; [left; constructor|]. inversion HB as [|? ? Hb HB']; subst. cbn in Hb.
      destruct (IH HB') as [IH1|(h1 & b0 & b1 & cfg & w1 & h2 & -> & A)].
      - destruct (Z.eq_dec t 0) as [->|Ht].
        + destruct b as [|b0 [|b1 b]].
          * left. constructor; [right; cbn; unfold len; cbn; lia|exact IH1].
          * left. constructor; [right; cbn; unfold len; cbn; lia|exact IH1].
          * right. inversion Hb as [|? ? Y0 Y1]; inversion Y1; subst. exists [], b0, b1, b, w0, h. auto.
        + left. constructor; [left; exact Ht|exact IH1].
      - right. exists ((b, t, w0) :: h1), b0, b1, cfg, w1, h2. auto. }
    destruct HD as [HD|HD]; [left|right; exact HD]. split; [exact HD|]. rewrite <- Hp, no_config_run by exact HD. reflexivity. }
  destruct HX as [[HX HG]|(h1 & b0 & b1 & cfg & w0 & h2 & -> & B0 & B1 & HX)].
  - exfalso. unfold aac_parse, add_adts in E. rewrite HG, orb_true_r in E. unfold wfail in E; destruct (len frame =? 0); cbn in E; discriminate.
  - destruct (config_bits b0 b1) as [[o i] c] eqn:HC.
    destruct (configured h1 b0 b1 cfg w0 h2 B0 B1 HX o i c HC) as [Ep Hok]. rewrite Hp in Ep. subst p. rewrite Ep in *.
    rewrite raw_frame in E by (exact Hne || reflexivity).
    exists o, i, c, (adts_header (mkAac true o i c) (len frame)), []. split; [exact Hok|]. split.
    { exists h1, b0, b1, cfg, w0, h2. auto. }
    destruct (run_plan_any [adts_header (mkAac true o i c) (len frame); frame] (Ok tt) w) as (w1 & r1 & R & _ & [(-> & R1 & _)|(-> & _)]);
      rewrite R in E; inversion E; subst.
    split; [rewrite R1; cbn [concat]; rewrite app_nil_r; reflexivity|].
    pose proof (read_adts_header (mkAac true o i c) (len frame) [] Hok (len_nonneg frame)) as HR. rewrite app_nil_r in HR. rewrite HR.
    cbn [ac_object ac_rate ac_chan]. rewrite (Z.add_comm 7). reflexivity.
Qed.
Print Assumptions C16_header_fields_partial.
(** Every frame of more than 8184 bytes, every object type outside 1..4 and every channel configuration above 7 is
    written, without an error, behind a header that does not say so. *)
Theorem C16_true_header_refuted : forall h b0 b1 cfg w0 h2 o i c frame w,
  byte b0 -> byte b1 -> Forall no_config h2 -> config_bits b0 b1 = (o, i, c) ->
  frame <> [] -> never_fails w -> 8184 < len frame \/ ~ (1 <= o <= 4) \/ 7 < c ->
  let p := fst (aac_run new_aac (h ++ (b0 :: b1 :: cfg, 0, w0) :: h2)) in
  exists header w' a, aac_parse p frame 1 w = (p, (w', Ok tt)) /\ w_out w' = w_out w ++ header ++ frame /\
    read_adts (header ++ frame) = Some (a, frame) /\ ~ (ad_length a = 7 + len frame /\ ad_profile a = o - 1 /\ ad_chan a = c).
Proof.
  intros h b0 b1 cfg w0 h2 o i c frame w B0 B1 HF HC Hne Hw Hbad p.
  destruct (configured h b0 b1 cfg w0 h2 B0 B1 HF o i c HC) as [Ep Hok]. subst p. rewrite Ep.
  rewrite raw_frame by (exact Hne || reflexivity). rewrite run_plan_ok by exact Hw.
  exists (adts_header (mkAac true o i c) (len frame)). eexists _, _. split; [reflexivity|]. cbn [w_out concat]. rewrite app_nil_r.
  split; [reflexivity|]. pose proof (len_nonneg frame). split; [apply read_adts_header; [exact Hok|lia]|].
  cbn. destruct Hok as (R1 & R2 & R3). cbn in R1, R2, R3. lia.
Qed.
Print Assumptions C16_true_header_refuted.
Example C16_example : exists h p w', aac_used h p /\ aac_parse p [1; 2] 1 buffer0 = (p, (w', Ok tt)).
Proof.
  exists [([0x12; 0x10], 0, buffer0)]. eexists. eexists. split.
  - split; [repeat constructor; cbn; lia|reflexivity].
  - vm_compute. reflexivity.
Qed.

(** ** C17 *)
Theorem C17_raw_before_config : forall h p frame w, Forall no_config h -> fst (aac_run new_aac h) = p ->
  aac_parse p frame 1 w = (p, (w, Err EOther)).
Proof.
  intros h p frame w HF <-. rewrite no_config_run by exact HF. unfold aac_parse. destruct (len frame =? 0); [reflexivity|].
  change (1 =? 0) with false. change (1 =? 1) with true. cbv iota. unfold add_adts. cbn [ac_got new_aac negb]. rewrite orb_true_r. reflexivity.
Qed.
Print Assumptions C17_raw_before_config.
(** The same for every call of the history itself: raw frames fail and nothing is ever written. *)
Theorem C17_history_writes_nothing : forall h, Forall no_config h ->
  Forall2 (fun o r => fst r = snd o /\ snd r = Err EOther) h (snd (aac_run new_aac h)).
Proof.
  intros h. assert (G : forall p, ac_got p = false -> Forall no_config h -> Forall2 (fun o r => fst r = snd o /\ snd r = Err EOther) h (snd (aac_run p h))).
  { induction h as [|[[b t] w] h IH]; intros p Hp HF; cbn [aac_run]; [constructor|]. inversion HF; subst.
    pose proof (no_config_state p b t w H1) as Hs.
    assert (Hr : snd (aac_parse p b t w) = (w, Err EOther)).
    { unfold aac_parse. unfold no_config in H1. cbn [fst snd] in H1. destruct (len b =? 0); [reflexivity|]. destruct (t =? 0) eqn:Et.
      - unfold specific_info. replace (len b <? 2) with true by lia. reflexivity.
      - destruct (t =? 1); [|reflexivity]. unfold add_adts. rewrite Hp. cbn [negb]. rewrite orb_true_r. reflexivity. }
    destruct (aac_parse p b t w) as [p1 r]. cbn [fst snd] in Hs, Hr. subst p1 r. specialize (IH p Hp H2). destruct (aac_run p h). cbn [snd] in *.
    constructor; [split; reflexivity|exact IH]. }
  apply (G new_aac). reflexivity.
Qed.
Print Assumptions C17_history_writes_nothing.
Example C17_example : Forall no_config [([0x12], 0, buffer0); ([1; 2; 3], 1, buffer0); ([1; 2; 3], 7, buffer0)].
Proof. apply Forall_cons; [right; unfold len; cbn; lia|]. repeat (apply Forall_cons; [left; cbn; lia|]). apply Forall_nil. Qed.

(** ** C18 *)
(** Every sequence header of at least two bytes with the escape index 15 is rejected, and yet afterwards the
    parser accepts raw frames and reports 44100 Hz, whatever it was configured for. *)
Theorem C18_rejected_config_refuted : forall h p b0 b1 cfg w frame, aac_used h p -> byte b0 -> byte b1 ->
  snd (fst (config_bits b0 b1)) = 15 -> frame <> [] ->
  exists p', aac_parse p (b0 :: b1 :: cfg) 0 w = (p', (w, Err EOther)) /\ aac_sample_rate p' = 44100 /\
    (forall w1, never_fails w1 -> exists w2, aac_parse p' frame 1 w1 = (p', (w2, Ok tt))).
Proof.
  intros h p b0 b1 cfg w frame Hp B0 B1 HC Hf. pose proof (specific_info_eq p b0 b1 cfg B0 B1) as H.
  destruct (config_bits b0 b1) as [[o i] c]. cbn in HC. subst i. destruct H as (E & _).
  exists (mkAac true o 15 c). split.
  - unfold aac_parse. rewrite !len_cons. pose proof (len_nonneg cfg). replace (1 + (1 + len cfg) =? 0) with false by lia.
    change (0 =? 0) with true. cbv iota. rewrite E. reflexivity.
  - split; [reflexivity|]. intros w1 Hw. rewrite raw_frame by (exact Hf || reflexivity). rewrite run_plan_ok by exact Hw. eauto.
Qed.
Print Assumptions C18_rejected_config_refuted.
(** The rejections that have no effect are the others: too short, or of another frame type. *)
Theorem C18_rejected_config_partial : forall p b t w p' w', is_bytes b -> aac_parse p b t w = (p', (w', Err EOther)) ->
  p' = p \/ exists b0 b1 cfg, b = b0 :: b1 :: cfg /\ t = 0 /\ snd (fst (config_bits b0 b1)) = 15.
Proof.
  intros p b t w p' w' HB E. unfold aac_parse in E. destruct (len b =? 0); [left; congruence|]. destruct (t =? 0) eqn:Et.
  - destruct b as [|b0 [|b1 b]]; [left; change (specific_info p []) with (p, @Err unit EOther) in E; congruence|left; change (specific_info p [b0]) with (p, @Err unit EOther) in E; congruence|]. inversion HB as [|? ? B0 HB1]; inversion HB1 as [|? ? B1 HB2]; subst.
    pose proof (specific_info_eq p b0 b1 b B0 B1) as H. destruct (config_bits b0 b1) as [[o i] c] eqn:EC. destruct H as (EH & _). rewrite EH in E.
    destruct (i =? 15) eqn:E15; [|congruence]. right. exists b0, b1, b. rewrite EC. cbn. repeat split; lia.
  - left. destruct (t =? 1); congruence.
Qed.
Print Assumptions C18_rejected_config_partial.
Example C18_example : snd (fst (config_bits 0x17 0x80)) = 15. Proof. reflexivity. Qed.

(** ** C19 *)
Theorem C19_aac_sample_rate : forall h b0 b1 cfg w0 h2 o i c r,
  byte b0 -> byte b1 -> Forall no_config h2 -> config_bits b0 b1 = (o, i, c) -> frequency i = Some r ->
  aac_sample_rate (fst (aac_run new_aac (h ++ (b0 :: b1 :: cfg, 0, w0) :: h2))) = r.
Proof.
  intros h b0 b1 cfg w0 h2 o i c r B0 B1 HF HC Hr. destruct (configured h b0 b1 cfg w0 h2 B0 B1 HF o i c HC) as [-> (_ & Hi & _)]. cbn in Hi.
  assert (HI : In i [0; 1; 2; 3; 4; 5; 6; 7; 8; 9; 10; 11; 12; 13; 14; 15]) by (cbn; lia).
  clear - Hr HI. cbn [In] in HI. repeat (destruct HI as [<-|HI]; [cbn in Hr; first [discriminate|injection Hr as <-; reflexivity]|]). destruct HI.
Qed.
Print Assumptions C19_aac_sample_rate.
(** The two reserved indices are accepted and read as 44100 Hz. *)
Theorem C19_reserved_index : forall h b0 b1 cfg w0 h2 o i c,
  byte b0 -> byte b1 -> Forall no_config h2 -> config_bits b0 b1 = (o, i, c) -> i = 13 \/ i = 14 ->
  snd (aac_parse (fst (aac_run new_aac h)) (b0 :: b1 :: cfg) 0 w0) = (w0, Ok tt) /\
  aac_sample_rate (fst (aac_run new_aac (h ++ (b0 :: b1 :: cfg, 0, w0) :: h2))) = 44100.
Proof.
  intros h b0 b1 cfg w0 h2 o i c B0 B1 HF HC Hi. destruct (configured h b0 b1 cfg w0 h2 B0 B1 HF o i c HC) as [-> _].
  pose proof (specific_info_eq (fst (aac_run new_aac h)) b0 b1 cfg B0 B1) as H. rewrite HC in H. destruct H as (E & _).
  unfold aac_parse. rewrite !len_cons. pose proof (len_nonneg cfg). replace (1 + (1 + len cfg) =? 0) with false by lia.
  change (0 =? 0) with true. cbv iota. rewrite E. destruct Hi; subst i; split; reflexivity.
Qed.
Print Assumptions C19_reserved_index.
(** After every history: the last sequence header of two bytes or more counts, 96000 Hz before. *)
Theorem C19_rate_after : forall h, Forall (fun o => is_bytes (fst (fst o))) h ->
  aac_sample_rate (fst (aac_run new_aac h)) = aac_rate_after h.
Proof.
  intros h. induction h as [|[[b t] w] h IH] using rev_ind; intros HF; [reflexivity|]. apply Forall_app in HF. destruct HF as [HF HB]. inversion HB as [|? ? HB1 _]; subst. cbn in HB1.
  specialize (IH HF). unfold aac_rate_after in *. rewrite map_app. cbn [map]. rewrite last_some_snoc.
  destruct (Z.eq_dec t 0) as [->|Ht].
  - destruct b as [|b0 [|b1 b]]; cbn [config_index].
    1-2: rewrite aac_run_app; destruct (aac_run new_aac h) as [p1 r1]; cbn [aac_run]; unfold aac_parse; cbn; exact IH.
    inversion HB1 as [|? ? B0 HB2]; inversion HB2 as [|? ? B1 HB3]; subst. cbn [Z.eqb].
    destruct (config_bits b0 b1) as [[o i] c] eqn:HC. destruct (configured h b0 b1 b w [] B0 B1 (Forall_nil _) o i c HC) as [-> (_ & Hi & _)]. cbn in Hi. cbn [fst snd].
    assert (HI : In i [0; 1; 2; 3; 4; 5; 6; 7; 8; 9; 10; 11; 12; 13; 14; 15]) by (cbn; lia).
    clear - HI. cbn [In] in HI. repeat (destruct HI as [<-|HI]; [reflexivity|]). destruct HI.
  - assert (N : config_index (b, t, w) = None) by (destruct b as [|b0 [|b1 b]]; cbn [config_index]; auto; replace (t =? 0) with false by lia; reflexivity).
    rewrite N. rewrite aac_run_app. destruct (aac_run new_aac h) as [p1 r1]. cbn [aac_run].
    pose proof (no_config_state p1 b t w (or_introl Ht)) as HS. destruct (aac_parse p1 b t w) as [p2 r2]. cbn [fst] in *. subst p2. exact IH.
Qed.
Print Assumptions C19_rate_after.
Example C19_example : config_bits 0x13 0x90 = (2, 7, 2) /\ frequency 7 = Some 22050. Proof. split; reflexivity. Qed.

(** ** C20 *)
Theorem C20_mp3_rate_refuted : forall p p' h0 h1 h2 rest, byte h2 ->
  mp3_parse p (h0 :: h1 :: h2 :: rest) = (p', Ok tt) ->
  (mp3_frequency h2 = Some p' <-> h2 / 4 mod 4 = 0 /\ mp3_padding h2 = 0).
Proof.
  intros p p' h0 h1 h2 rest B E. unfold byte in B. unfold mp3_parse in E. rewrite !len_cons in E. pose proof (len_nonneg rest).
  replace (1 + (1 + (1 + len rest)) <? 3) with false in E by lia. change (at_ (h0 :: h1 :: h2 :: rest) 2) with h2 in E.
  rewrite (land_mask _ 2), shiftr_div in E by lia. change (2 ^ 2) with 4 in E. change (2 ^ 1) with 2 in E. change (len mp3_rates) with 3 in E.
  unfold mp3_frequency, mp3_padding. set (sf := h2 / 4 mod 4). set (pd := h2 / 2 mod 2).
  assert (EI : h2 / 2 mod 4 = sf mod 2 * 2 + pd) by (unfold sf, pd; lia). rewrite EI in E.
  assert (HS : In sf [0; 1; 2; 3]) by (unfold sf; cbn; lia). assert (HP : In pd [0; 1]) by (unfold pd; cbn; lia). clearbody sf pd.
  cbn [In] in HS, HP.
  destruct HS as [<-|[<-|[<-|[<-|[]]]]]; destruct HP as [<-|[<-|[]]]; cbn in E; try discriminate; injection E as <-; cbn;
    (split; [intros X; first [discriminate|split; reflexivity]|intros [X Y]; first [discriminate|reflexivity]]).
Qed.
Print Assumptions C20_mp3_rate_refuted.
(** Without padding and at 44100 Hz it is right. *)
Theorem C20_mp3_rate_partial : forall p h0 h1 h2 rest, byte h2 -> h2 / 4 mod 4 = 0 -> mp3_padding h2 = 0 ->
  mp3_parse p (h0 :: h1 :: h2 :: rest) = (44100, Ok tt) /\ mp3_frequency h2 = Some 44100.
Proof.
  intros p h0 h1 h2 rest B Hs Hp. unfold byte in B. unfold mp3_padding in Hp. split.
  - unfold mp3_parse. rewrite !len_cons. pose proof (len_nonneg rest).
    replace (1 + (1 + (1 + len rest)) <? 3) with false by lia. change (at_ (h0 :: h1 :: h2 :: rest) 2) with h2.
    rewrite (land_mask _ 2), shiftr_div by lia. change (2 ^ 2) with 4. change (2 ^ 1) with 2. change (len mp3_rates) with 3.
    replace (h2 / 2 mod 4) with 0 by lia. reflexivity.
  - unfold mp3_frequency. rewrite Hs. reflexivity.
Qed.
Print Assumptions C20_mp3_rate_partial.
(** After every history: the last frame whose bits 1 and 2 are not both set counts, 44100 Hz before. *)
Theorem C20_rate_after : forall h, Forall is_bytes h -> fst (mp3_run new_mp3 h) = mp3_rate_after h.
Proof.
  intros h. induction h as [|b h IH] using rev_ind; intros HF; [reflexivity|]. apply Forall_app in HF. destruct HF as [HF HB]. inversion HB as [|? ? HB1 _]; subst.
  specialize (IH HF). unfold mp3_rate_after in *. rewrite map_app. cbn [map]. rewrite last_some_snoc.
  assert (R : forall l p, fst (mp3_run p (l ++ [b])) = fst (mp3_parse (fst (mp3_run p l)) b)).
  { induction l as [|x l IHl]; intros p; cbn [app mp3_run]; [cbn [fst]; destruct (mp3_parse p b); reflexivity|]. destruct (mp3_parse p x) as [p1 r]. specialize (IHl p1).
    destruct (mp3_run p1 (l ++ [b])), (mp3_run p1 l). exact IHl. }
  rewrite R, IH. destruct b as [|b0 [|b1 [|b2 b]]]; cbn [mp3_rate_read]; try reflexivity.
  assert (B2 : byte b2) by (inversion HB1 as [|? ? _ X]; inversion X as [|? ? _ Y]; inversion Y; assumption). unfold byte in B2.
  unfold mp3_parse. rewrite !len_cons. pose proof (len_nonneg b). replace (1 + (1 + (1 + len b)) <? 3) with false by lia. change (at_ (b0 :: b1 :: b2 :: b) 2) with b2.
  rewrite (land_mask _ 2), shiftr_div by lia. change (2 ^ 2) with 4. change (2 ^ 1) with 2. change (len mp3_rates) with 3.
  assert (HI : In (b2 / 2 mod 4) [0; 1; 2; 3]) by (cbn; lia). cbn [In] in HI.
  destruct HI as [<-|[<-|[<-|[<-|[]]]]]; reflexivity.
Qed.
Print Assumptions C20_rate_after.
(** Concrete frames read wrongly: 32000 Hz as 44100, 48000 Hz as 32000, 44100 Hz with padding as 48000. *)
Example C20_example :
  mp3_parse new_mp3 [0xFF; 0xFB; 0x98] = (44100, Ok tt) /\ mp3_frequency 0x98 = Some 32000 /\
  mp3_parse new_mp3 [0xFF; 0xFB; 0x94] = (32000, Ok tt) /\ mp3_frequency 0x94 = Some 48000 /\
  mp3_parse new_mp3 [0xFF; 0xFB; 0x92] = (48000, Ok tt) /\ mp3_frequency 0x92 = Some 44100.
Proof. repeat split; reflexivity. Qed.

(** ** H.264 *)
(** What the parser has to insert before an IDR after a history of Parse calls: nothing at first; every readable
    sequence header adds to it. *)
Inductive remembers : list (bytes * bool * writer) -> bytes -> Prop :=
| Rm_new : remembers [] []
| Rm_media h c b w : remembers h c -> remembers (h ++ [(b, false, w)]) c
| Rm_unread h c b w : remembers h c -> (forall sps pps ext, ~ header_of sps pps ext b) -> remembers (h ++ [(b, true, w)]) c
| Rm_header h c b w sps pps ext : remembers h c -> header_of sps pps ext b ->
    remembers (h ++ [(b, true, w)]) (c ++ annexb [sps; pps] ++ ext).
Definition h264_used (h : list (bytes * bool * writer)) (p : h264) : Prop :=
  Forall (fun o => is_bytes (fst (fst o))) h /\ fst (h264_run new_h264 h) = p.

Lemma h264_run_app a : forall p b, h264_run p (a ++ b) =
  let '(p1, r1) := h264_run p a in let '(p2, r2) := h264_run p1 b in (p2, r1 ++ r2).
Proof.
  induction a as [|[[x t] w] a IH]; intros p b; cbn [app h264_run].
  - destruct (h264_run p b). reflexivity.
  - destruct (h264_parse p x t w) as [p1 r]. rewrite IH. destruct (h264_run p1 a) as [p2 r1]. destruct (h264_run p2 b). reflexivity.
Qed.
Lemma remembers_info h c : remembers h c -> forall p, h264_used h p -> h_info p = c.
Proof.
  assert (Snoc : forall h o p, h264_used (h ++ [o]) p -> is_bytes (fst (fst o)) /\ exists p0, h264_used h p0 /\ p = fst (h264_parse p0 (fst (fst o)) (snd (fst o)) (snd o))).
  { intros h0 [[b s] w] p [HB HE]. apply Forall_app in HB as [HB1 HB2]. apply Forall_inv in HB2. cbn [fst snd] in *. split; [exact HB2|].
    rewrite h264_run_app in HE. exists (fst (h264_run new_h264 h0)). split; [split; [exact HB1|reflexivity]|].
    destruct (h264_run new_h264 h0) as [p1 r1]. cbn [h264_run fst] in *. destruct (h264_parse p1 b s w) as [p2 r2]. cbn in *. congruence. }
  intros H. induction H as [|h c b w H IH|h c b w H IH Hno|h c b w sps pps ext H IH Hh]; intros p Hp.
  - destruct Hp as [_ <-]. reflexivity.
  - destruct (Snoc _ _ _ Hp) as (HB & p0 & Hp0 & ->). cbn [fst snd] in *. rewrite h264_parse_state, app_nil_r by exact HB. apply IH, Hp0.
  - destruct (Snoc _ _ _ Hp) as (HB & p0 & Hp0 & ->). cbn [fst snd] in *. rewrite h264_parse_state by exact HB.
    destruct (psi_inv (mkH264 [] []) b HB) as [(sps & pps & ext & X)|[-> _]]; [elim (Hno _ _ _ X)|]. rewrite app_nil_r. apply IH, Hp0.
  - destruct (Snoc _ _ _ Hp) as (HB & p0 & Hp0 & ->). cbn [fst snd] in *. rewrite h264_parse_state by exact HB.
    rewrite (psi_record _ _ _ _ _ Hh). cbn [h_info]. rewrite (IH _ Hp0). reflexivity.
Qed.
Lemma avcc_bytes nals : Forall good_nal nals -> is_bytes (avcc nals).
Proof.
  induction 1 as [|n nals (_ & H & _) HF IH]; [constructor|]. unfold avcc. cbn [map concat]. apply is_bytes_app. split; [|exact IH].
  apply is_bytes_app. split; [apply is_bytes_be32|exact H].
Qed.
Lemma avcc_start nals : Forall good_nal nals -> starts_0001 (avcc nals) <-> exists n ns, nals = n :: ns /\ len n = 1.
Proof.
  intros HG. destruct nals as [|n ns]; [split; [intros [r E]; discriminate|intros (n & ns & E & _); discriminate]|].
  inversion HG as [|? ? G1 G2]; subst. destruct G1 as (H1 & H2 & H3). change (2 ^ 32) with 4294967296 in H3. pose proof (len_nonneg n).
  unfold avcc. cbn [map concat]. split.
  - intros [r E]. exists n, ns. split; [reflexivity|]. unfold be32, u8 in E. cbn [app] in E. injection E as E1 E2 E3 E4 _.
    clear - E1 E2 E3 E4 H H3. lia.
  - intros (n' & ns' & E & L). inversion E; subst. rewrite L. eexists. reflexivity.
Qed.
Lemma avcc_nonempty nals : nals <> [] -> avcc nals <> [].
Proof. destruct nals as [|n ns]; [congruence|]. intros _. unfold avcc. cbn [map concat be32 app]. discriminate. Qed.

(** A media call on length-prefixed units that is not mistaken for a byte stream. *)
Lemma media_converted p nals : nals <> [] -> Forall good_nal nals -> Forall (fun n => is_supported n = true) nals -> ~ starts_0001 (avcc nals) ->
  exists calls, converts (h_info p) nals (concat calls) /\ forall w, snd (h264_parse p (avcc nals) false w) = run_plan calls (Ok tt) w.
Proof.
  intros Hne HG HS Hns. destruct (parse_media p (avcc nals) (avcc_bytes _ HG) (avcc_nonempty _ Hne) Hns) as (calls & r & HP & HC).
  assert (HL : 4 <= len (avcc nals)).
  { destruct nals as [|n ns]; [congruence|]. unfold avcc. cbn [map concat]. rewrite !len_app, len_be32. pose proof (len_nonneg n).
    match goal with |- context [len (concat ?x)] => pose proof (len_nonneg (concat x)) end. lia. }
  destruct HC as [(A & _)|(nals2 & tail & _ & E & G2 & S2 & CV & HT)]; [lia|].
  assert (EQ : nals2 = nals /\ tail = []).
  { clear - HG HS E G2 S2 HT. rewrite <- (app_nil_r (avcc nals)) in E. revert nals2 G2 S2 E.
    induction nals as [|n ns IH]; intros nals2 G2 S2 E.
    - destruct nals2 as [|m ms].
      + cbn in E. subst tail. auto.
      + cbn in E. discriminate.
    - inversion HG as [|? ? G1 G1']; inversion HS as [|? ? S1 S1']; subst.
      assert (EA : forall k ks t, avcc (k :: ks) ++ t = be32 (len k) ++ k ++ (avcc ks ++ t)) by (intros; unfold avcc; cbn [map concat]; rewrite <- !app_assoc; reflexivity).
      destruct nals2 as [|m ms].
      + change (avcc []) with (@nil Z) in E; rewrite app_nil_l in E. destruct HT as [[HT _]|[[HT1 HT2] _]].
        * subst tail. rewrite EA in E. discriminate.
        * elim (HT2 n (avcc ns ++ []) G1 S1). rewrite <- EA. symmetry. exact E.
      + inversion G2 as [|? ? M1 M2]; inversion S2 as [|? ? N1 N2]; subst. rewrite !EA in E.
        destruct (good_nal_head n (avcc ns ++ []) G1) as (_ & A2 & A3 & A4 & A5). destruct (good_nal_head m (avcc ms ++ tail) M1) as (_ & B2 & B3 & B4 & B5).
        assert (EL : len n = len m) by (rewrite <- A3, <- B3, <- A2, <- B2, E; reflexivity).
        rewrite E, B4 in A4. assert (En : n = m) by (rewrite <- (take_app n (avcc ns ++ [])), <- (take_app m (avcc ms ++ tail)), A4, EL; reflexivity).
        subst m. apply app_inv_head in A4. destruct (IH G1' S1' ms M2 N2 (eq_sym A4)) as [-> ->]. auto. }
  destruct EQ as [-> ->]. destruct HT as [[_ ->]|[[HT _] _]]; [|congruence].
  exists calls. split; [exact CV|]. intros w. destruct (HP w) as (p' & E' & _). rewrite E'. reflexivity.
Qed.

(** ** C21 *)
(** For every history and every list of units; the only exception is a first unit of exactly one byte (C23). *)
Theorem C21_avcc_to_annexb : forall h p c nals w, h264_used h p -> remembers h c -> nals <> [] ->
  Forall good_nal nals -> Forall (fun n => is_supported n = true) nals -> (forall n ns, nals = n :: ns -> len n <> 1) -> never_fails w ->
  exists p' w' out, h264_parse p (avcc nals) false w = (p', (w', Ok tt)) /\ w_out w' = w_out w ++ out /\ converts c nals out.
Proof.
  intros h p c nals w Hp Hc Hne HG HS H1 Hw.
  assert (Hns : ~ starts_0001 (avcc nals)) by (intros X; apply avcc_start in X; [|exact HG]; destruct X as (n & ns & E & L); exact (H1 _ _ E L)).
  destruct (media_converted p nals Hne HG HS Hns) as (calls & CV & HP). rewrite (remembers_info _ _ Hc _ Hp) in CV.
  specialize (HP w). destruct (h264_parse p (avcc nals) false w) as [p' wr]. cbn [snd] in HP. rewrite run_plan_ok in HP by exact Hw. subst wr.
  eexists _, _, _. split; [reflexivity|]. split; [reflexivity|exact CV].
Qed.
Print Assumptions C21_avcc_to_annexb.
Theorem C21_conversion_unique : forall c nals s1 s2, converts c nals s1 -> converts c nals s2 -> s1 = s2.
Proof. intros c nals s1 s2 H1 H2. exact (converts_fun _ _ _ H1 _ H2). Qed.
Print Assumptions C21_conversion_unique.
(** The sequence header of the stream is what gets inserted: one header, then media only. *)
Theorem C21_cached_parameter_sets : forall b w0 h sps pps, header_of sps pps [] b -> Forall (fun o => snd (fst o) = false) h ->
  remembers ((b, true, w0) :: h) (annexb [sps; pps]).
Proof.
  intros b w0 h sps pps Hb HF. induction h as [|[[x s] w] h IH] using rev_ind.
  - pose proof (Rm_header [] [] b w0 sps pps [] Rm_new Hb) as H. rewrite !app_nil_r in H. exact H.
  - apply Forall_app in HF as [HF1 HF2]. apply Forall_inv in HF2. cbn in HF2. subst s. apply (Rm_media ((b, true, w0) :: h)). apply IH, HF1.
Qed.
Print Assumptions C21_cached_parameter_sets.
Definition ex_idr : bytes := [0x65; 1; 2].
Definition ex_slice : bytes := [0x41; 3].
Definition ex_sps : bytes := [0x67; 9].
Definition ex_pps : bytes := [0x68; 8].
Definition ex_header (sps pps ext : bytes) : bytes := [1; 77; 0; 30; 255; 225] ++ be16 (len sps) ++ sps ++ [1] ++ be16 (len pps) ++ pps ++ ext.
Example C21_example : header_of ex_sps ex_pps [] (ex_header ex_sps ex_pps []) /\
  Forall good_nal [ex_slice; ex_idr] /\ Forall (fun n => is_supported n = true) [ex_slice; ex_idr] /\
  (let p := fst (h264_run new_h264 [(ex_header ex_sps ex_pps [], true, buffer0)]) in
   w_out (fst (snd (h264_parse p (avcc [ex_slice; ex_idr]) false buffer0)))) =
  [0; 0; 0; 1; 9; 240; 0; 0; 0; 1; 0x41; 3; 0; 0; 0; 1; 0x67; 9; 0; 0; 0; 1; 0x68; 8; 0; 0; 0; 1; 0x65; 1; 2].
Proof.
  split; [apply Hd_record; unfold len; cbn; lia|]. split.
  - repeat apply Forall_cons; try apply Forall_nil; (split; [discriminate|split; [repeat constructor; cbn; lia|unfold len; cbn; lia]]).
  - split; [repeat constructor|vm_compute; reflexivity].
Qed.

(** ** C22 *)
Lemma h264_total p b seq w : is_bytes b ->
  snd (snd (h264_parse p b seq w)) = Ok tt \/ exists e, snd (snd (h264_parse p b seq w)) = Err e.
Proof.
  intros HB. destruct (len b =? 0) eqn:E0; [right; exists EOther; unfold h264_parse; rewrite E0; reflexivity|].
  assert (Hne : b <> []) by (intros ->; discriminate).
  assert (RP : forall calls r w, r = Ok tt \/ (exists e, r = Err e) ->
     snd (run_plan (A := unit) calls r w) = Ok tt \/ exists e, snd (run_plan (A := unit) calls r w) = Err e).
  { intros calls r w1 Hr. destruct (run_plan_any calls r w1) as (w' & r' & E & _ & [(-> & _)|(-> & _)]); rewrite E; cbn; eauto. }
  destruct seq.
  - unfold h264_parse. rewrite E0. destruct (psi_inv p b HB) as [(sps & pps & ext & H)|[H _]]; [rewrite (psi_record _ _ _ _ _ H)|rewrite H]; cbn; eauto.
  - destruct (is_start b) eqn:ES.
    + unfold h264_parse. rewrite E0, ES. cbn [snd]. rewrite (planned_write b w). apply RP. auto.
    + destruct (parse_media p b HB Hne) as (calls & r & HP & HC); [intros X; apply is_start_spec in X; congruence|].
      destruct (HP w) as (p' & E & _). rewrite E. cbn [snd]. apply RP.
      destruct HC as [(_ & _ & ->)|(nals & tail & _ & _ & _ & _ & _ & [(_ & ->)|(_ & ->)])]; eauto.
Qed.
Theorem C22_h264_total : forall h p b seq w, h264_used h p -> is_bytes b ->
  snd (snd (h264_parse p b seq w)) = Ok tt \/ exists e, snd (snd (h264_parse p b seq w)) = Err e.
Proof. intros h p b seq w _. apply h264_total. Qed.
Print Assumptions C22_h264_total.
Example C22_example : h264_used [([1; 2; 3], true, buffer0); ([0; 0; 0; 9; 1], false, buffer0)] (fst (h264_run new_h264 [([1; 2; 3], true, buffer0); ([0; 0; 0; 9; 1], false, buffer0)])).
Proof. split; [repeat constructor; cbn; lia|reflexivity]. Qed.
(** Exactly which media packets are accepted: byte streams, and length-prefixed supported units. *)
Theorem C22_accepted_media : forall h p b, h264_used h p -> is_bytes b -> ~ starts_0001 b ->
  ((exists nals, nals <> [] /\ b = avcc nals /\ Forall good_nal nals /\ Forall (fun n => is_supported n = true) nals) <->
   snd (snd (h264_parse p b false buffer0)) = Ok tt).
Proof.
  intros h p b _ HB Hns. split.
  - intros (nals & Hne & -> & HG & HS). destruct (media_converted p nals Hne HG HS Hns) as (calls & _ & HP). rewrite HP.
    rewrite run_plan_ok by (intros n; reflexivity). reflexivity.
  - intros E. destruct (list_eq_dec Z.eq_dec b []) as [->|Hne]; [discriminate|].
    destruct (parse_media p b HB Hne Hns) as (calls & r & HP & HC). destruct (HP buffer0) as (p' & E' & _). rewrite E' in E. cbn [snd] in E.
    rewrite run_plan_ok in E by (intros n; reflexivity). cbn [snd] in E.
    destruct HC as [(_ & _ & ->)|(nals & tail & _ & Eb & G & S & _ & [(-> & ->)|(_ & ->)])]; try discriminate.
    exists nals. rewrite app_nil_r in Eb. split; [intros ->; apply Hne; exact Eb|]. auto.
Qed.
Print Assumptions C22_accepted_media.

(** ** C23 *)
(** Every packet whose first unit is one byte long is passed through unchanged. *)
Theorem C23_length_prefixed_refuted : forall p n nals w, len n = 1 -> h264_parse p (avcc (n :: nals)) false w = (p, write (avcc (n :: nals)) w).
Proof.
  intros p n nals w L. unfold avcc. cbn [map concat]. rewrite L.
  change (be32 1) with [0; 0; 0; 1]. destruct n as [|b [|b' n]]; try (unfold len in L; cbn in L; lia). cbn [app].
  unfold h264_parse. set (l := concat _). replace (len (0 :: 0 :: 0 :: 1 :: b :: l) =? 0) with false by (rewrite len_cons; pose proof (len_nonneg (0 :: 0 :: 1 :: b :: l)); lia).
  assert (is_start (0 :: 0 :: 0 :: 1 :: b :: l) = true) as -> by (apply is_start_spec; eexists; reflexivity). reflexivity.
Qed.
Print Assumptions C23_length_prefixed_refuted.
(** A legal access unit that is damaged: a one-byte end-of-sequence or delimiter-like unit in front of an IDR. *)
Example C23_example : Forall good_nal [[9]; ex_idr] /\ Forall (fun n => is_supported n = true) [[9]; ex_idr] /\
  w_out (fst (snd (h264_parse new_h264 (avcc [[9]; ex_idr]) false buffer0))) = [0; 0; 0; 1; 9; 0; 0; 0; 3; 0x65; 1; 2].
Proof.
  split; [repeat apply Forall_cons; try apply Forall_nil; (split; [discriminate|split; [repeat constructor; cbn; lia|unfold len; cbn; lia]])|].
  split; [repeat constructor|vm_compute; reflexivity].
Qed.
(** All others are converted or rejected: what is written starts with the delimiter. *)
Theorem C23_length_prefixed_partial : forall h p n nals w, h264_used h p -> Forall good_nal (n :: nals) -> len n <> 1 -> never_fails w ->
  exists p' w' out r, h264_parse p (avcc (n :: nals)) false w = (p', (w', r)) /\ w_out w' = w_out w ++ delimiter ++ out.
Proof.
  intros h p n nals w _ HG HL Hw.
  destruct (parse_media p (avcc (n :: nals)) (avcc_bytes _ HG) (avcc_nonempty (n :: nals) ltac:(discriminate))) as (calls & r & HP & HC).
  { intros X. apply avcc_start in X; [|exact HG]. destruct X as (n' & ns' & E & L). inversion E; subst. congruence. }
  destruct (HP w) as (p' & E & _). rewrite run_plan_ok in E by exact Hw.
  destruct HC as [(A & _)|(nals2 & tail & _ & _ & _ & _ & CV & _)].
  { exfalso. inversion HG as [|? ? G1 G2]; subst. destruct (good_nal_head n (avcc nals) G1) as (L1 & _).
    unfold avcc in A. cbn [map concat] in A. fold (avcc nals) in A. rewrite <- app_assoc, L1 in A. pose proof (len_nonneg n). pose proof (len_nonneg (avcc nals)). lia. }
  assert (exists out, concat calls = delimiter ++ out) as [out Eo] by (destruct CV; eexists; reflexivity).
  eexists _, _, out, _. split; [exact E|]. cbn [w_out]. rewrite Eo. reflexivity.
Qed.
Print Assumptions C23_length_prefixed_partial.

(** ** C24 *)
(** Two sequence headers: before the next IDR both are inserted, always. *)
Theorem C24_new_header_refuted : forall b1 b2 sps1 pps1 sps2 pps2 w1 w2 idr w,
  is_bytes b1 -> is_bytes b2 -> header_of sps1 pps1 [] b1 -> header_of sps2 pps2 [] b2 ->
  good_nal idr -> is_idr idr = true -> len idr <> 1 -> never_fails w ->
  let p := fst (h264_run new_h264 [(b1, true, w1); (b2, true, w2)]) in
  snd (h264_run new_h264 [(b1, true, w1); (b2, true, w2)]) = [(w1, Ok tt); (w2, Ok tt)] /\
  (exists p' w', h264_parse p (avcc [idr]) false w = (p', (w', Ok tt)) /\ w_out w' = w_out w ++ delimiter ++ annexb [sps1; pps1; sps2; pps2; idr]) /\
  ~ converts (annexb [sps2; pps2]) [idr] (delimiter ++ annexb [sps1; pps1; sps2; pps2; idr]).
Proof.
  intros b1 b2 sps1 pps1 sps2 pps2 w1 w2 idr w HB1 HB2 H1 H2 HG HI HL Hw p.
  assert (P1 : forall p0 b sps pps w0, header_of sps pps [] b -> h264_parse p0 b true w0 = (mkH264 (h_info p0 ++ annexb [sps; pps]) (h_buf p0), (w0, Ok tt))).
  { intros p0 b sps pps w0 H. unfold h264_parse. destruct (len b =? 0) eqn:E0.
    - destruct H. rewrite !len_app in E0. change (len [v; p1; c; l; ls; ns]) with 6 in E0. pose proof (len_nonneg sps). pose proof (len_nonneg pps). rewrite !len_be16 in E0. change (len [np]) with 1 in E0. unfold len at 3 in E0. cbn in E0. lia.
    - rewrite (psi_record _ _ _ _ _ H), app_nil_r. reflexivity. }
  assert (ER : h264_run new_h264 [(b1, true, w1); (b2, true, w2)] = (mkH264 (annexb [sps1; pps1] ++ annexb [sps2; pps2]) (h_buf new_h264), [(w1, Ok tt); (w2, Ok tt)])).
  { cbn [h264_run]. rewrite (P1 _ _ _ _ _ H1). rewrite (P1 _ _ _ _ _ H2). reflexivity. }
  subst p. rewrite ER. cbn [fst snd]. split; [reflexivity|].
  assert (HS : is_supported idr = true) by (unfold is_supported, is_slice_or_sei, is_idr in *; lia).
  assert (HSl : is_slice_or_sei idr = true) by (unfold is_slice_or_sei, is_idr in *; lia).
  split.
  - destruct (media_converted (mkH264 (annexb [sps1; pps1] ++ annexb [sps2; pps2]) (h_buf new_h264)) [idr]) as (calls & CV & HP).
    + discriminate.
    + constructor; [exact HG|constructor].
    + constructor; [exact HS|constructor].
    + intros X. apply avcc_start in X; [|constructor; [exact HG|constructor]]. destruct X as (n & ns & E & L). inversion E; subst. congruence.
    + specialize (HP w). destruct (h264_parse _ (avcc [idr]) false w) as [p' wr]. cbn [snd] in HP. rewrite run_plan_ok in HP by exact Hw. subst wr.
      eexists _, _. split; [reflexivity|]. cbn [w_out]. f_equal.
      cbn [h_info] in CV.
      pose proof (Cv_idr (annexb [sps1; pps1] ++ annexb [sps2; pps2]) [] idr [] ltac:(intros ? []) HI) as CV2. cbn [app] in CV2.
      rewrite (converts_fun _ _ _ CV _ CV2). f_equal. cbn [filter existsb]. rewrite HSl. rewrite <- !annexb_app. reflexivity.
  - intros CV. pose proof (Cv_idr (annexb [sps2; pps2]) [] idr [] ltac:(intros ? []) HI) as CV2. cbn [app] in CV2.
    pose proof (converts_fun _ _ _ CV _ CV2) as E. apply (f_equal len) in E. cbn [filter existsb] in E. rewrite HSl in E.
    change (annexb []) with (@nil Z) in E. cbn [app] in E. rewrite <- annexb_app in E. rewrite !len_app in E.
    unfold annexb in E. cbn [map concat app] in E. rewrite ?len_app, ?len_cons, ?len_app, ?len_cons in E. pose proof (len_nonneg sps1). pose proof (len_nonneg pps1).
    repeat (rewrite ?len_app, ?len_cons in E). lia.
Qed.
Print Assumptions C24_new_header_refuted.
(** With a single sequence header what is inserted is that one (and see C21_cached_parameter_sets). *)
Theorem C24_first_header_partial : forall h b w0 sps pps h2 p idr w, header_of sps pps [] b ->
  Forall (fun o => snd (fst o) = true -> forall s q e, ~ header_of s q e (fst (fst o))) h ->
  Forall (fun o => snd (fst o) = true -> forall s q e, ~ header_of s q e (fst (fst o))) h2 ->
  h264_used (h ++ (b, true, w0) :: h2) p -> good_nal idr -> is_idr idr = true -> len idr <> 1 -> never_fails w ->
  exists p' w', h264_parse p (avcc [idr]) false w = (p', (w', Ok tt)) /\ w_out w' = w_out w ++ delimiter ++ annexb [sps; pps; idr].
Proof.
  intros h b w0 sps pps h2 p idr w Hb F1 F2 Hp HG HI HL Hw.
  assert (R : forall h0 c, remembers h0 c -> forall h1, Forall (fun o => snd (fst o) = true -> forall s q e, ~ header_of s q e (fst (fst o))) h1 -> remembers (h0 ++ h1) c).
  { intros h0 c H0 h1. induction h1 as [|[[x s] w1] h1 IH] using rev_ind; intros HF; [rewrite app_nil_r; exact H0|].
    apply Forall_app in HF as [HF1 HF2]. apply Forall_inv in HF2. cbn in HF2. rewrite app_assoc. destruct s.
    - apply Rm_unread; [apply IH, HF1|apply HF2; reflexivity].
    - apply Rm_media. apply IH, HF1. }
  assert (RM : remembers (h ++ (b, true, w0) :: h2) (annexb [sps; pps])).
  { change (h ++ (b, true, w0) :: h2) with (h ++ [(b, true, w0)] ++ h2). rewrite app_assoc. apply R; [|exact F2].
    pose proof (Rm_header h [] b w0 sps pps [] (R [] [] Rm_new h F1) Hb) as H. rewrite !app_nil_r in H. exact H. }
  assert (HS : is_supported idr = true) by (unfold is_supported, is_slice_or_sei, is_idr in *; lia).
  destruct (C21_avcc_to_annexb _ _ _ [idr] w Hp RM ltac:(discriminate)) as (p' & w' & out & E & Eo & CV).
  - constructor; [exact HG|constructor].
  - constructor; [exact HS|constructor].
  - intros n ns E. inversion E; subst. exact HL.
  - exact Hw.
  - exists p', w'. split; [exact E|]. rewrite Eo. f_equal.
    pose proof (Cv_idr (annexb [sps; pps]) [] idr [] ltac:(intros ? []) HI) as CV2. cbn [app] in CV2.
    rewrite (converts_fun _ _ _ CV _ CV2). f_equal. cbn [filter existsb]. replace (is_slice_or_sei idr) with true by (unfold is_slice_or_sei, is_idr in *; lia).
    rewrite <- !annexb_app. reflexivity.
Qed.
Print Assumptions C24_first_header_partial.
Example C24_example : header_of ex_sps ex_pps [] (ex_header ex_sps ex_pps []) /\ good_nal ex_idr /\ is_idr ex_idr = true /\ len ex_idr <> 1.
Proof. split; [apply Hd_record; unfold len; cbn; lia|]. split; [split; [discriminate|split; [repeat constructor; cbn; lia|unfold len; cbn; lia]]|]. split; [reflexivity|unfold len; cbn; lia]. Qed.

(** ** C25 *)
(** Any bytes after the first PPS (more parameter sets, the high-profile extension) end up in the stream. *)
Theorem C25_cached_sets_refuted : forall sps pps ext b w0 idr w, is_bytes b -> header_of sps pps ext b -> ext <> [] ->
  good_nal idr -> is_idr idr = true -> len idr <> 1 -> never_fails w ->
  let p := fst (h264_run new_h264 [(b, true, w0)]) in
  exists p' w', h264_parse p (avcc [idr]) false w = (p', (w', Ok tt)) /\
    w_out w' = w_out w ++ delimiter ++ annexb [sps; pps] ++ ext ++ annexb [idr] /\
    delimiter ++ annexb [sps; pps] ++ ext ++ annexb [idr] <> delimiter ++ annexb [sps; pps] ++ annexb [idr].
Proof.
  intros sps pps ext b w0 idr w HB Hb He HG HI HL Hw p.
  assert (RM : remembers [(b, true, w0)] (annexb [sps; pps] ++ ext)) by exact (Rm_header [] [] b w0 sps pps ext Rm_new Hb).
  assert (HU : h264_used [(b, true, w0)] p) by (split; [constructor; [exact HB|constructor]|reflexivity]).
  assert (HS : is_supported idr = true) by (unfold is_supported, is_slice_or_sei, is_idr in *; lia).
  destruct (C21_avcc_to_annexb _ _ _ [idr] w HU RM ltac:(discriminate)) as (p' & w' & out & E & Eo & CV).
  - constructor; [exact HG|constructor].
  - constructor; [exact HS|constructor].
  - intros n ns E. inversion E; subst. exact HL.
  - exact Hw.
  - exists p', w'. split; [exact E|]. rewrite Eo. split.
    + f_equal. pose proof (Cv_idr (annexb [sps; pps] ++ ext) [] idr [] ltac:(intros ? []) HI) as CV2. cbn [app] in CV2.
      rewrite (converts_fun _ _ _ CV _ CV2). f_equal. cbn [filter existsb]. replace (is_slice_or_sei idr) with true by (unfold is_slice_or_sei, is_idr in *; lia).
      change (annexb []) with (@nil Z). cbn [app]. rewrite <- app_assoc. reflexivity.
    + intros X. apply (f_equal len) in X. rewrite !len_app in X. apply He, len_zero. lia.
Qed.
Print Assumptions C25_cached_sets_refuted.
(** Without such bytes the record is cached exactly. *)
Theorem C25_cached_sets_partial : forall b w0 sps pps idr w, is_bytes b -> header_of sps pps [] b ->
  good_nal idr -> is_idr idr = true -> len idr <> 1 -> never_fails w ->
  let p := fst (h264_run new_h264 [(b, true, w0)]) in
  exists p' w', h264_parse p (avcc [idr]) false w = (p', (w', Ok tt)) /\ w_out w' = w_out w ++ delimiter ++ annexb [sps; pps] ++ annexb [idr].
Proof.
  intros b w0 sps pps idr w HB Hb HG HI HL Hw p.
  destruct (C24_first_header_partial [] b w0 sps pps [] p idr w Hb) as (p' & w' & E & Eo); try assumption; try constructor.
  - constructor; [exact HB|constructor].
  - reflexivity.
  - exists p', w'. rewrite <- annexb_app. auto.
Qed.
Print Assumptions C25_cached_sets_partial.
(** A record is accepted iff it can be read that far. *)
Theorem C25_header_accepted : forall h p b w, h264_used h p -> is_bytes b ->
  ((exists sps pps ext, header_of sps pps ext b) <-> snd (h264_parse p b true w) = (w, Ok tt)) /\
  ((forall sps pps ext, ~ header_of sps pps ext b) <-> h264_parse p b true w = (p, (w, Err EOther))).
Proof.
  intros h p b w _ HB. assert (E0 : len b =? 0 = true -> b = []) by (intros H; apply len_zero; lia).
  assert (Hnil : forall sps pps ext, ~ header_of sps pps ext []) by (intros sps pps ext H; inversion H).
  unfold h264_parse. destruct (len b =? 0).
  - rewrite (E0 eq_refl). split; split; intros H; try reflexivity; try discriminate; try exact Hnil. destruct H as (s & q & e & H). elim (Hnil _ _ _ H).
  - destruct (psi_inv p b HB) as [(sps & pps & ext & H)|[H1 H2]].
    + rewrite (psi_record _ _ _ _ _ H). cbn. split; split; intros H'; try reflexivity; try discriminate; eauto. elim (H' _ _ _ H).
    + rewrite H1. cbn. split; split; intros H'; try reflexivity; try discriminate; try exact H2. destruct H' as (s & q & e & H'). elim (H2 _ _ _ H').
Qed.
Print Assumptions C25_header_accepted.
Example C25_example : header_of ex_sps ex_pps [0xFD; 0xF8; 0xF8; 0] (ex_header ex_sps ex_pps [0xFD; 0xF8; 0xF8; 0]).
Proof. apply Hd_record; unfold len; cbn; lia. Qed.

(** ** C26 *)
(** A packet with an unsupported or truncated unit in it fails after the delimiter and every unit before it have
    been written. *)
Theorem C26_all_or_nothing_refuted : forall h p c nals tail w, h264_used h p -> remembers h c ->
  Forall good_nal nals -> Forall (fun n => is_supported n = true) nals -> is_bytes tail -> bad_tail tail ->
  4 <= len (avcc nals ++ tail) -> ~ starts_0001 (avcc nals ++ tail) -> never_fails w ->
  exists p' w' out, h264_parse p (avcc nals ++ tail) false w = (p', (w', Err EOther)) /\ w_out w' = w_out w ++ out /\
    converts c nals out /\ out <> [].
Proof.
  intros h p c nals tail w Hp Hc HG HS HB HT HL Hns Hw.
  assert (HBB : is_bytes (avcc nals ++ tail)) by (apply is_bytes_app; split; [apply avcc_bytes, HG|exact HB]).
  assert (Hne : avcc nals ++ tail <> []) by (intros E; rewrite E in HL; unfold len in HL; cbn in HL; lia).
  destruct (plan_avcc nals (length (avcc nals ++ tail)) (h_info p) false false [] tail HG HS (le_n _)) as (fuel' & HF & HP).
  unfold h264_parse, get_annexb. replace (len (avcc nals ++ tail) =? 0) with false by lia. replace (len (avcc nals ++ tail) <? 4) with false by lia.
  assert (is_start (avcc nals ++ tail) = false) as -> by (destruct (is_start _) eqn:E; [elim Hns; apply is_start_spec, E|reflexivity]).
  rewrite write_never_fails by exact Hw. set (w1 := mkW _ _ _).
  pose proof (calls_convert (h_info p) nals) as CV. rewrite (remembers_info _ _ Hc _ Hp) in *.
  destruct (nal_calls c false false [] nals) as [cs [[has' wrote'] buf']]. cbn [fst] in CV.
  rewrite plan_bad in HP by assumption. rewrite app_nil_r in HP.
  pose proof (annexb_loop_go (length (avcc nals ++ tail)) (avcc nals ++ tail) c 0 false false [] w1 ltac:(lia)) as HG2.
  rewrite Z.sub_0_r, drop_0 in HG2. rewrite HG2.
  pose proof (annexb_go_plan (length (avcc nals ++ tail)) (avcc nals ++ tail) c false false [] w1) as HW. rewrite HP in HW. cbn [fst snd] in HW.
  destruct (annexb_go _ _ c false false [] w1) as [buf wr]. cbn [snd] in HW. rewrite HW. rewrite run_plan_ok by exact Hw.
  eexists _, _, _. split; [reflexivity|]. cbn [w_out w1]. rewrite <- app_assoc. split; [reflexivity|]. split; [exact CV|discriminate].
Qed.
Print Assumptions C26_all_or_nothing_refuted.
(** A single good unit of a type the parser does not know is enough. *)
Example C26_example : bad_tail (avcc [[0x0C; 1]]) /\ is_bytes (avcc [[0x0C; 1]]) /\ 4 <= len (avcc [[0x0C; 1]]) /\ ~ starts_0001 (avcc [[0x0C; 1]]) /\
  h264_parse new_h264 (avcc [[0x0C; 1]]) false buffer0 = (mkH264 [] [], (mkW delimiter 1 (fun _ => None), Err EOther)).
Proof.
  split; [|split; [change (avcc [[0x0C; 1]]) with [0; 0; 0; 2; 0x0C; 1]; repeat constructor; cbn; lia|split; [unfold len; cbn; lia|split; [intros [r E]; discriminate|vm_compute; reflexivity]]]].
  split; [discriminate|]. intros n rest G S E. destruct (good_nal_head n rest G) as (L1 & L2 & L3 & L4 & L5). rewrite <- E in L2, L4.
  change (take (avcc [[0x0C; 1]]) 4) with (be32 2) in L2. change (drop (avcc [[0x0C; 1]]) 4) with [0x0C; 1] in L4.
  rewrite <- L2 in L3. change (be_val (be32 2)) with 2 in L3. destruct n as [|a [|b [|c n]]]; try (unfold len in L3; cbn in L3; lia).
  cbn [app] in L4. inversion L4; subst. discriminate.
Qed.
(** Errors that leave the output alone: every rejected sequence header, and packets shorter than four bytes. *)
Theorem C26_nothing_written_partial : forall h p b seq w, h264_used h p -> is_bytes b -> (seq = true \/ len b < 4) ->
  snd (h264_parse p b seq w) = (w, Ok tt) \/ snd (h264_parse p b seq w) = (w, Err EOther).
Proof.
  intros h p b seq w _ HB H. unfold h264_parse. destruct (len b =? 0) eqn:E0; [right; reflexivity|]. destruct seq.
  - destruct (psi_inv p b HB) as [(sps & pps & ext & X)|[X _]]; [rewrite (psi_record _ _ _ _ _ X)|rewrite X]; auto.
  - destruct H as [H|H]; [discriminate|]. destruct (is_start b) eqn:ES; [apply is_start_spec in ES; destruct ES as [r ->]; rewrite !len_cons in H; pose proof (len_nonneg r); lia|].
    unfold get_annexb. replace (len b <? 4) with true by lia. right. reflexivity.
Qed.
Print Assumptions C26_nothing_written_partial.

(** ** C27 *)
Lemma results_cons {A B} (sel : A -> bool) o ops (r : B) rs : results_at sel (o :: ops) (r :: rs) = (if sel o then [r] else []) ++ results_at sel ops rs.
Proof. unfold results_at. cbn [combine filter fst]. destruct (sel o); reflexivity. Qed.
(** A CodecParser fed any history of packets: at the AVC packets it behaves as an h264 parser of its own fed these
    packets only, at the AAC packets as an aac parser, at the MP3 packets as an mp3 parser; a packet without
    header or media or of another codec is rejected, nothing is written and nothing else changes. *)
Theorem C27_codec_dispatch : forall ops rs c, codec_run new_codec ops = (c, rs) ->
  length rs = length ops /\
  results_at for_avc ops rs = snd (h264_run new_h264 (avc_ops ops)) /\
  results_at for_aac ops rs = snd (aac_run new_aac (aac_ops ops)) /\
  map snd (results_at for_mp3 ops rs) = snd (mp3_run new_mp3 (mp3_ops ops)) /\
  Forall2 (fun q r => match route_of (fst q) with
                      | RNone => r = (snd q, Err EOther)
                      | RNoIface => r = (snd q, Panic)
                      | RMp3 _ => fst r = snd q
                      | _ => True
                      end) ops rs.
Proof.
  intros ops rs c E. assert (G : forall ops c0 c rs, codec_run c0 ops = (c, rs) ->
    length rs = length ops /\
    results_at for_avc ops rs = snd (h264_run (or_new (cp_h264 c0) new_h264) (avc_ops ops)) /\
    results_at for_aac ops rs = snd (aac_run (or_new (cp_aac c0) new_aac) (aac_ops ops)) /\
    map snd (results_at for_mp3 ops rs) = snd (mp3_run (or_new (cp_mp3 c0) new_mp3) (mp3_ops ops)) /\
    Forall2 (fun q r => match route_of (fst q) with
                      | RNone => r = (snd q, Err EOther)
                      | RNoIface => r = (snd q, Panic)
                      | RMp3 _ => fst r = snd q
                      | _ => True
                      end) ops rs); [|apply (G ops new_codec c rs E)].
  clear. induction ops as [|[p w] ops IH]; intros c0 c rs E; cbn [codec_run] in E.
  - inversion E; subst. repeat split. constructor.
  - rewrite codec_parse_route in E. unfold avc_ops, aac_ops, mp3_ops. cbn [flat_map fst snd]. fold (avc_ops ops) (aac_ops ops) (mp3_ops ops).
    assert (FA : for_avc (p, w) = match route_of p with RAvc _ _ => true | _ => false end) by reflexivity.
    assert (FB : for_aac (p, w) = match route_of p with RAac _ _ => true | _ => false end) by reflexivity.
    assert (FC : for_mp3 (p, w) = match route_of p with RMp3 _ => true | _ => false end) by reflexivity.
    destruct (route_of p) as [| |s m|t m|m] eqn:ER; cbn [app].
    + destruct (codec_run c0 ops) as [c2 rs2] eqn:E2. inversion E; subst. destruct (IH _ _ _ E2) as (I1 & I2 & I3 & I4 & I5).
      rewrite !results_cons, FA, FB, FC. cbn [app length]. split; [congruence|]. repeat (split; [assumption|]). constructor; [cbn [fst]; rewrite ER; reflexivity|exact I5].
    + destruct (codec_run c0 ops) as [c2 rs2] eqn:E2. inversion E; subst. destruct (IH _ _ _ E2) as (I1 & I2 & I3 & I4 & I5).
      rewrite !results_cons, FA, FB, FC. cbn [app length]. split; [congruence|]. repeat (split; [assumption|]). constructor; [cbn [fst]; rewrite ER; reflexivity|exact I5].
    + cbn [h264_run]. destruct (h264_parse (or_new (cp_h264 c0) new_h264) m s w) as [x wr].
      destruct (codec_run _ ops) as [c2 rs2] eqn:E2 in E. inversion E; subst. destruct (IH _ _ _ E2) as (I1 & I2 & I3 & I4 & I5). cbn [cp_h264 cp_aac cp_mp3 or_new] in *.
      rewrite !results_cons, FA, FB, FC. cbn [app length]. rewrite I2. destruct (h264_run x (avc_ops ops)). cbn [snd].
      split; [congruence|]. split; [reflexivity|]. repeat (split; [assumption|]). constructor; [cbn [fst]; rewrite ER; exact I|exact I5].
    + cbn [aac_run]. destruct (aac_parse (or_new (cp_aac c0) new_aac) m t w) as [x wr].
      destruct (codec_run _ ops) as [c2 rs2] eqn:E2 in E. inversion E; subst. destruct (IH _ _ _ E2) as (I1 & I2 & I3 & I4 & I5). cbn [cp_h264 cp_aac cp_mp3 or_new] in *.
      rewrite !results_cons, FA, FB, FC. cbn [app length]. rewrite I3. destruct (aac_run x (aac_ops ops)). cbn [snd].
      split; [congruence|]. split; [assumption|]. split; [reflexivity|]. split; [assumption|]. constructor; [cbn [fst]; rewrite ER; exact I|exact I5].
    + cbn [mp3_run]. destruct (mp3_parse (or_new (cp_mp3 c0) new_mp3) m) as [x r].
      destruct (codec_run _ ops) as [c2 rs2] eqn:E2 in E. inversion E; subst. destruct (IH _ _ _ E2) as (I1 & I2 & I3 & I4 & I5). cbn [cp_h264 cp_aac cp_mp3 or_new] in *.
      rewrite !results_cons, FA, FB, FC. cbn [app length map snd]. rewrite I4. destruct (mp3_run x (mp3_ops ops)). cbn [snd].
      split; [congruence|]. split; [assumption|]. split; [assumption|]. split; [reflexivity|]. constructor; [cbn [fst]; rewrite ER; reflexivity|exact I5].
Qed.
Print Assumptions C27_codec_dispatch.
Definition ex_video : packet := mkP PktVideo 0 0 0 (Some (mkH (Some (mkVH true false false false true 7 0)) None)) [] (Some (avcc [ex_idr])).
Definition ex_aac (t : Z) (m : bytes) : packet := mkP PktAudio 0 0 0 (Some (mkH None (Some (mkAH 10 t true false false)))) [] (Some m).
Definition ex_mp3 (m : bytes) : packet := mkP PktAudio 0 0 0 (Some (mkH None (Some (mkAH 2 0 false true false)))) [] (Some m).
Example C27_example : map route_of [ex_video; ex_aac 0 [0x12; 0x10]; ex_mp3 [0xFF; 0xFB; 0x90]; set_data [1] (mkP 1 0 0 0 None [] None)] =
  [RAvc false (avcc [ex_idr]); RAac 0 [0x12; 0x10]; RMp3 [0xFF; 0xFB; 0x90]; RNone].
Proof. reflexivity. Qed.

(** ** C28 *)
Lemma aac_ops_app a b : aac_ops (a ++ b) = aac_ops a ++ aac_ops b. Proof. apply flat_map_app. Qed.
Lemma mp3_ops_app a b : mp3_ops (a ++ b) = mp3_ops a ++ mp3_ops b. Proof. apply flat_map_app. Qed.
(** Once an AAC packet has been seen, whatever MP3 packets follow, the rate stays the one of the AAC packets. *)
Theorem C28_sample_rate_refuted : forall ops m p w, route_of p = RMp3 m -> aac_ops ops <> [] ->
  codec_rate (fst (codec_run new_codec (ops ++ [(p, w)]))) = codec_rate (fst (codec_run new_codec ops)) /\
  codec_rate (fst (codec_run new_codec ops)) = Ok (aac_sample_rate (fst (aac_run new_aac (aac_ops ops)))).
Proof.
  intros ops m p w Hr Ha.
  assert (HR : forall l, aac_ops l <> [] -> codec_rate (fst (codec_run new_codec l)) = Ok (aac_sample_rate (fst (aac_run new_aac (aac_ops l))))).
  { intros l Hl. destruct (codec_run_state l new_codec) as (_ & H & _). unfold codec_rate. rewrite H. destruct (aac_ops l); [congruence|]. reflexivity. }
  assert (E : aac_ops (ops ++ [(p, w)]) = aac_ops ops).
  { rewrite aac_ops_app. unfold aac_ops at 2. cbn [flat_map fst]. rewrite Hr. apply app_nil_r. }
  rewrite !HR by (rewrite ?E; exact Ha). rewrite E. split; reflexivity.
Qed.
Print Assumptions C28_sample_rate_refuted.
(** A stream that switched from 44100 Hz AAC to 48000 Hz (as read) MP3. *)
Example C28_example :
  let ops := [(ex_aac 0 [0x12; 0x10], buffer0); (ex_mp3 [0xFF; 0xFB; 0x92], buffer0)] in
  codec_rate (fst (codec_run new_codec ops)) = Ok 44100 /\ fst (mp3_run new_mp3 (mp3_ops ops)) = 48000.
Proof. split; reflexivity. Qed.
(** Streams with one audio codec only. *)
Theorem C28_sample_rate_partial : forall ops, Forall (fun o => is_bytes (fst (fst o))) (aac_ops ops) -> Forall is_bytes (mp3_ops ops) ->
  codec_rate (fst (codec_run new_codec ops)) =
    match aac_ops ops, mp3_ops ops with
    | [], [] => Err EOther
    | [], _ => Ok (mp3_rate_after (mp3_ops ops))
    | _, _ => Ok (aac_rate_after (aac_ops ops))
    end.
Proof.
  intros ops HA HM. destruct (codec_run_state ops new_codec) as (_ & H1 & H2). unfold codec_rate. rewrite H1, H2, <- C19_rate_after, <- C20_rate_after by assumption.
  destruct (aac_ops ops); [|reflexivity]. destruct (mp3_ops ops); reflexivity.
Qed.
Print Assumptions C28_sample_rate_partial.

(** ** C100 *)
(** On any writer, whatever fails, the result is the writer's error and what was written is a prefix of what a
    successful call writes. *)
Theorem C100_h264_writer_failure : forall h p b w p' w' r good, h264_used h p -> is_bytes b ->
  h264_parse p b false w = (p', (w', r)) -> snd (h264_parse p b false buffer0) = good ->
  exists out rest, w_out w' = w_out w ++ out /\ w_out (fst good) = out ++ rest /\
    ((r = snd good /\ rest = [] /\ ~ failed w w') \/ (r = Err EWrite /\ failed w w')).
Proof.
  intros h p b w p' w' r good _ HB E Eg.
  assert (HP : exists calls r0, (forall w0, snd (h264_parse p b false w0) = run_plan calls r0 w0)).
  { destruct (list_eq_dec Z.eq_dec b []) as [->|Hne]; [exists [], (Err EOther); reflexivity|].
    destruct (is_start b) eqn:ES.
    - exists [b], (Ok tt). intros w0. unfold h264_parse. rewrite ES. destruct (len b =? 0) eqn:E0; [elim Hne; apply len_zero; lia|]. apply planned_write.
    - destruct (parse_media p b HB Hne) as (calls & r0 & HP & _); [intros X; apply is_start_spec in X; congruence|].
      exists calls, r0. intros w0. destruct (HP w0) as (p0 & E0 & _). rewrite E0. reflexivity. }
  destruct HP as (calls & r0 & HP). pose proof (HP w) as H1. rewrite E in H1. cbn [snd] in H1. rewrite HP in Eg.
  rewrite run_plan_ok in Eg by (intros n; reflexivity). subst good. cbn [fst snd w_out buffer0 app].
  symmetry in H1. exact (run_plan_outcome _ _ _ _ _ H1).
Qed.
Print Assumptions C100_h264_writer_failure.

(** ** C101 *)
Theorem C101_adts_writer_failure : forall h p frame w p' w' r good, aac_used h p ->
  aac_parse p frame 1 w = (p', (w', r)) -> snd (aac_parse p frame 1 buffer0) = good ->
  exists out rest, w_out w' = w_out w ++ out /\ w_out (fst good) = out ++ rest /\
    ((r = snd good /\ rest = [] /\ ~ failed w w') \/ (r = Err EWrite /\ failed w w')).
Proof.
  intros h p frame w p' w' r good _ E Eg.
  destruct (list_eq_dec Z.eq_dec frame []) as [->|Hne].
  { cbn in E. inversion E; subst. exists [], []. rewrite app_nil_r. split; [reflexivity|]. split; [reflexivity|]. left. split; [reflexivity|]. split; [reflexivity|apply failed_same]. }
  destruct (ac_got p) eqn:HG.
  - rewrite raw_frame in E, Eg by assumption. cbn [snd] in Eg. rewrite run_plan_ok in Eg by (intros n; reflexivity). subst good. cbn [fst snd w_out buffer0].
    set (calls := [adts_header p (len frame); frame]) in *.
    apply (f_equal snd) in E. exact (run_plan_outcome _ _ _ _ _ E).
  - assert (EX : forall w0, aac_parse p frame 1 w0 = (p, (w0, Err EOther))).
    { intros w0. unfold aac_parse, add_adts. destruct (len frame =? 0); [reflexivity|]. change (1 =? 0) with false. change (1 =? 1) with true. cbv iota.
      rewrite HG, orb_true_r. reflexivity. }
    rewrite EX in E, Eg. inversion E; subst. exists [], []. rewrite app_nil_r. split; [reflexivity|]. split; [reflexivity|]. left. split; [reflexivity|]. split; [reflexivity|apply failed_same].
Qed.
Print Assumptions C101_adts_writer_failure.
