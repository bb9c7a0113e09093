(** Properties C175 and C176: program tables as a player sees them. *)
From Coq Require Import String.
From Verif Require Import Base.Go Base.GoFacts Base.IO Proofs.IOFacts Model.AmfTypes Model.Packet Model.Flv Model.Parsers Model.Crc32 Model.Ts
  Spec.Flv Spec.Crc32 Spec.Parsers Spec.Ts Spec.Player Proofs.Crc32 Proofs.Flv Proofs.Parsers Proofs.TsPackets Proofs.TsTables Proofs.TsMore Props.Flv Props.Parsers Props.Ts Props.TsMixer Props.Remux Props.Recording Spec.Mixer.
Import ListNotations.
Local Open Scope list_scope.
Local Open Scope Z_scope.
Local Ltac Zify.zify_post_hook ::= Z.div_mod_to_equations.

(** The byte with the version number of every table. *)
Lemma tables_bytes x k s a b : tm_ok (x_muxer x) -> len (x_meta x) <= 163 -> tables x = (k, Ok [s; a; b]) ->
  nth 10 s 0 = 0xc1 /\ nth 10 a 0 = 0xc1 /\ nth 10 b 0 = 0xc1.
Proof.
  intros HM HL E. unfold tables in E. pose proof (ts_sdt_ok _ _ HM HL) as E1. cbv zeta in E1. pose proof (sdt_ok (x_muxer x) (x_meta x) HM) as K1. rewrite E1 in E, K1. cbn [fst] in K1.
  pose proof (pat_ok _ K1) as K2. rewrite (ts_pat_ok _ K1) in E, K2. cbn [fst] in K2.
  pose proof (types_entries (x_types x)) as HT. destruct (read_programs (types_to_slice (x_types x))) as (_ & R2 & _).
  pose proof (ts_pmt_ok _ (types_to_slice (x_types x)) _ _ K2 (pmt_programs_eq (types_to_slice (x_types x)) 0 []) ltac:(cbn [app]; lia)) as E3. cbv zeta in E3. rewrite E3 in E. cbn [bind] in E.
  injection E as _ <- <- <-. split; [|split]; reflexivity.
Qed.
Lemma packet_nth s pusi pid cc pl i : read_packet s = Some (mkTs pusi pid cc None pl) -> nth i pl 0 = nth (4 + i) s 0.
Proof.
  unfold read_packet. intros H. destruct s as [|b0 [|b1 [|b2 [|b3 s]]]]; try discriminate. destruct (_ && _); [|discriminate]. destruct (b3 / 16) as [|[[?|?|]|[?|?|]|]|]; try discriminate.
  - destruct s as [|? s]; [discriminate|]. destruct (_ <=? _); discriminate.
  - destruct s as [|? s]; [discriminate|]. destruct (_ =? _); discriminate.
  - injection H as _ _ _ <-. reflexivity.
Qed.
Lemma section_version pl t n body : read_section pl = Some (t, n, body) -> nth 6 pl 0 = 0xc1 -> 7 <= n -> version_of body = 0.
Proof.
  unfold read_section. intros H H6 Hn. destruct pl as [|[|?|?] [|a [|b [|c r]]]]; try discriminate. destruct (_ && _); [|discriminate]. injection H as <- <- <-. cbn [nth] in H6.
  assert (E : nth 2 (take r (b mod 16 * 256 + c - 4)) 0 = 0xc1); [|unfold version_of; rewrite E; reflexivity].
  unfold take. set (k := Z.to_nat (b mod 16 * 256 + c - 4)). assert (K : (3 <= k)%nat) by (unfold k; lia). clearbody k. destruct k as [|[|[|k]]]; try lia.
  destruct r as [|x [|y [|z r]]]; cbn in *; try discriminate. exact H6.
Qed.

(** ** What each call writes *)
Definition announced (types : Z) : list (Z * Z) := media_entries (types_to_slice types).
Definition table_packets (types : Z) (l : list tspkt) : Prop :=
  exists sdt pat pmt np bp nm bm pcr, l = [sdt; pat; pmt] /\ ts_pid sdt = 0x11 /\ ts_pid pat = 0 /\ ts_pid pmt = 0x1001 /\
    read_section (ts_payload pat) = Some (0, np, bp) /\ read_pat bp = Some (1, [(1, 0x1001)]) /\ version_of bp = 0 /\
    read_section (ts_payload pmt) = Some (2, nm, bm) /\ read_pmt bm = Some (1, pcr, announced types) /\ version_of bm = 0.
Definition on_media (q : tspkt) : Prop := ts_pid q = 0x100 \/ ts_pid q = 0x101.
Lemma step_packets x w o : mix_inv x -> same_writer o -> never_fails w ->
  let '(x', w', r) := mix_step (x, w) o in
  r <> Panic -> exists out l, w_out w' = w_out w ++ out /\ never_fails w' /\ read_stream out = Some l /\
    match o with XHeader => table_packets (x_types x) l | _ => Forall on_media l end.
Proof.
  intros HI HQ HW. pose proof HI as (HM & _).
  assert (HNIL : forall x1 : tsmix, exists out l, w_out w = w_out w ++ out /\ never_fails w /\ read_stream out = Some l /\ Forall on_media l).
  { intros _. exists [], []. rewrite app_nil_r. split; [reflexivity|]. split; [exact HW|]. split; [reflexivity|constructor]. }
  destruct o as [p|md|p|p| |p a b|w2]; try contradiction HQ; cbn [mix_step].
  - rewrite mux_result in *. destruct (codec_parse (x_codec x) p buffer0) as [c [wc r]] eqn:EC. destruct r as [[]| | |]; try (intros _; apply HNIL; exact x).
    pose proof (codec_accepts_can _ _ _ _ _ EC) as HC. set (q := set_media (w_out wc) p) in *. assert (HCq : can_mux q) by (apply set_media_can, HC).
    destruct (ts_answers (x_muxer x) q (x_dts x) (x_pts x) w HM HCq) as [_ TP]. destruct (ts_mux (x_muxer x) q (x_dts x) (x_pts x) w) as [k [w1 r1]] eqn:EX. cbn [snd] in TP. intros Hr.
    destruct (mux_frame (x_muxer x) q (x_dts x) (x_pts x) w HM HCq) as (m' & w' & out & p0 & l & E & E1 & E2 & E3 & E4 & _).
    { intros HK HH. apply Hr, TP. auto. } { exact HW. }
    rewrite E in EX. injection EX as <- <- <-. exists out, (p0 :: l). split; [exact E1|]. split; [exact E2|]. split; [exact E3|].
    eapply Forall_impl; [|exact E4]. intros y Hy. unfold on_media. rewrite Hy. unfold pid_of, lo_of. destruct (_ =? _); [left|right]; reflexivity.
  - destruct (mix_save_metadata x md). intros _. apply HNIL. exact x.
  - destruct (mix_save_avc x p) as [[x1 p1] r1]. intros _. apply HNIL. exact x.
  - destruct (mix_save_aac x p) as [[x1 p1] r1]. intros _. apply HNIL. exact x.
  - rewrite set_header_tables. destruct (Z_le_dec (len (x_meta x)) 163) as [HLm|HLm].
    + destruct (tables_ok x HM HLm) as (k & s & a & b & ps & pa & pb & ba & bb & E & K & S1 & A1 & P1 & _ & A2 & A3 & P2 & P3 & _). destruct (tables_bytes x k s a b HM HLm E) as (_ & Va & Vb). rewrite E. rewrite run_plan_ok by exact HW. cbn [fst].
      intros _. eexists _, _. split; [reflexivity|]. split; [exact HW|]. split.
      * cbn [concat]. rewrite app_nil_r. replace (s ++ a ++ b) with (s ++ a ++ b ++ []) by (rewrite app_nil_r; reflexivity). apply read_stream_cons; [eapply read_packet_len, S1|exact S1|]. apply read_stream_cons; [eapply read_packet_len, A1|exact A1|]. apply read_stream_cons; [eapply read_packet_len, P1|exact P1|]. reflexivity.
      * eexists _, _, _, _, ba, _, bb, _. split; [reflexivity|]. split; [reflexivity|]. split; [reflexivity|]. split; [reflexivity|]. cbn [ts_payload]. split; [exact A2|]. split; [exact A3|].
        split; [apply (section_version _ _ _ _ A2); [rewrite (packet_nth _ _ _ _ _ 6 A1); exact Va|lia]|].
        split; [exact P2|]. split; [exact P3|]. apply (section_version _ _ _ _ P2); [rewrite (packet_nth _ _ _ _ _ 6 P1); exact Vb|]. pose proof (len_nonneg (media_entries (types_to_slice (x_types x)))). lia.
    + destruct (tables_panic x HM ltac:(lia)) as (k & E). rewrite E. cbn [bind]. intros H. congruence.
  - destruct (mix_update x p a b). intros _. apply HNIL. exact x.
Qed.

(** ** What the player makes of it *)
Lemma watch_app a : forall t b, watch t (a ++ b) = let '(t1, k1) := watch t a in let '(t2, k2) := watch t1 b in (t2, k1 ++ k2).
Proof.
  induction a as [|q a IH]; intros t b; cbn [app watch]; [destruct (watch t b); reflexivity|]. destruct (hear t q) as [t1 keep]. rewrite IH.
  destruct (watch t1 a) as [t2 k2]. destruct (watch t2 b) as [t3 k3]. destruct keep; reflexivity.
Qed.
Lemma watch_before l : Forall on_media l -> watch untuned l = (untuned, []).
Proof. induction 1 as [|q l Hq _ IH]; [reflexivity|]. cbn [watch]. unfold hear. replace (ts_pid q =? 0) with false by (destruct Hq; lia). cbn. rewrite IH. reflexivity. Qed.
Definition found (e : list (Z * Z)) : tuned := mkTuned (Some (0, 0x1001)) (Some (0, e)).
Lemma watch_tables types l : table_packets types l -> watch untuned l = (found (announced types), []) /\
  forall e, (forall x, In x e -> snd x = 0x100 \/ snd x = 0x101) -> watch (found e) l = (found e, []).
Proof.
  intros (sdt & pat & pmt & np & bp & nm & bm & pcr & -> & H1 & H2 & H3 & A1 & A2 & A3 & B1 & B2 & B3). split; [|intros e He]; cbn [watch]; unfold hear; rewrite ?H1, ?H2, ?H3.
  - change (17 =? 0) with false. change (0 =? 0) with true. change (4097 =? 0) with false. cbv iota. cbn [is_map untuned tn_pat streams_of tn_pmt existsb].
    unfold hear_pat. rewrite A1, A2. cbn [find fst negb]. change (1 =? 0) with false. cbn [negb known_version untuned tn_pat]. cbn [is_map tn_pat]. change (4097 =? 4097) with true. cbv iota.
    unfold hear_pmt. rewrite B1, B2. cbn [known_version tn_pmt tn_pat]. rewrite A3, B3. reflexivity.
  - change (17 =? 0) with false. change (0 =? 0) with true. change (4097 =? 0) with false. cbv iota. cbn [is_map found tn_pat streams_of tn_pmt]. change (17 =? 4097) with false. cbv iota.
    unfold hear_pat. rewrite A1, A2. cbn [find fst negb]. change (1 =? 0) with false. cbn [negb]. rewrite A3. cbn [known_version found tn_pat]. change (0 =? 0) with true. cbv iota. cbn [is_map tn_pat]. change (4097 =? 4097) with true. cbv iota.
    unfold hear_pmt. rewrite B1, B2, B3. cbn [known_version tn_pmt]. change (0 =? 0) with true. cbv iota.
    replace (existsb (fun e0 => snd e0 =? 17) e) with false; [reflexivity|]. symmetry. apply not_true_is_false. intros X. apply existsb_exists in X as (y & Y1 & Y2). specialize (He y Y1). lia.
Qed.
Lemma watch_media (e : list (Z * Z)) l : Forall on_media l -> watch (found e) l = (found e, filter (fun q => existsb (fun x => snd x =? ts_pid q) e) l).
Proof.
  induction 1 as [|q l Hq _ IH]; [reflexivity|]. cbn [watch filter]. unfold hear. replace (ts_pid q =? 0) with false by (destruct Hq; lia). cbn [is_map found tn_pat streams_of tn_pmt].
  replace (ts_pid q =? 0x1001) with false by (destruct Hq; lia). fold (found e). rewrite IH. reflexivity.
Qed.
Lemma kept_on_pid (e : list (Z * Z)) x l : In x e -> on_pid (snd x) (filter (fun q => existsb (fun x => snd x =? ts_pid q) e) l) = on_pid (snd x) l.
Proof.
  intros Hx. induction l as [|q l IH]; [reflexivity|]. cbn [filter]. unfold on_pid in *. destruct (Z.eqb_spec (ts_pid q) (snd x)) as [E|E].
  - replace (existsb _ e) with true by (symmetry; apply existsb_exists; exists x; split; [exact Hx|lia]). cbn [filter]. rewrite E, Z.eqb_refl, IH. reflexivity.
  - destruct (existsb _ e); cbn [filter]; replace (ts_pid q =? snd x) with false by lia; exact IH.
Qed.
(** Calls before the first tables. *)
Lemma run_before os : forall x w, mix_inv x -> Forall same_writer os -> ~ In XHeader os -> never_fails w ->
  let '(x', w', rs) := mix_run (x, w) os in
  ~ In Panic rs -> mix_inv x' /\ exists out l, w_out w' = w_out w ++ out /\ never_fails w' /\ read_stream out = Some l /\ Forall on_media l.
Proof.
  induction os as [|o os IH]; intros x w HI HQ HX HW; cbn [mix_run].
  - intros _. split; [exact HI|]. exists [], []. rewrite app_nil_r. split; [reflexivity|]. split; [exact HW|]. split; [reflexivity|constructor].
  - inversion HQ as [|? ? Q1 Q2]; subst. pose proof (step_packets x w o HI Q1 HW) as H1. pose proof (mix_step_inv x w o HI) as HI1. destruct (mix_step (x, w) o) as [[x1 w1] r]. cbn [fst] in HI1.
    specialize (IH x1 w1 HI1 Q2 ltac:(intros X; apply HX; right; exact X)). destruct (mix_run (x1, w1) os) as [[x2 w2] rs]. intros HN. cbn [In] in HN.
    destruct H1 as (o1 & l1 & A1 & A2 & A3 & A4); [intros ->; tauto|]. destruct (IH A2) as (HI2 & o2 & l2 & B1 & B2 & B3 & B4); [tauto|]. split; [exact HI2|].
    exists (o1 ++ o2), (l1 ++ l2). split; [rewrite B1, A1, app_assoc; reflexivity|]. split; [exact B2|]. split; [apply read_stream_app; assumption|].
    apply Forall_app. split; [|exact B4]. destruct o; try exact A4. elim HX. left. reflexivity.
Qed.
(** Calls after them: the tables are not changed any more. *)
Lemma run_after (e : list (Z * Z)) os : (forall x, In x e -> snd x = 0x100 \/ snd x = 0x101) -> forall x w, mix_inv x -> Forall same_writer os -> never_fails w -> long_keys (frames_sent (x, w) os) ->
  let '(x', w', rs) := mix_run (x, w) os in
  ~ In Panic rs -> exists out l kept, w_out w' = w_out w ++ out /\ read_stream out = Some l /\ chunk l (frames_sent (x, w) os) /\
    watch (found e) l = (found e, kept) /\ (forall y, In y e -> on_pid (snd y) kept = on_pid (snd y) l).
Proof.
  intros He. induction os as [|o os IH]; intros x w HI HQ HW HL; cbn [mix_run].
  - intros _. exists [], [], []. rewrite app_nil_r. split; [reflexivity|]. split; [reflexivity|]. split; [apply chunk_nil; reflexivity|]. split; reflexivity.
  - assert (EF : frames_sent (x, w) (o :: os) = frames_sent (x, w) [o] ++ frames_sent (fst (mix_step (x, w) o)) os) by (cbn [frames_sent]; rewrite app_nil_r; reflexivity).
    rewrite EF in *. apply Forall_app in HL as [HL1 HL2]. inversion HQ as [|? ? Q1 Q2]; subst. pose proof (step_chunk x w o HI Q1 HW HL1) as H1. pose proof (step_packets x w o HI Q1 HW) as H2. pose proof (mix_step_inv x w o HI) as HI1. destruct (mix_step (x, w) o) as [[x1 w1] r]. cbn [fst] in *.
    specialize (IH x1 w1 HI1 Q2). destruct (mix_run (x1, w1) os) as [[x2 w2] rs]. intros HN. cbn [In] in HN.
    destruct H1 as (o1 & l1 & A1 & A2 & A3 & A4); [intros ->; tauto|]. destruct H2 as (o1' & l1' & C1 & _ & C3 & C4); [intros ->; tauto|].
    rewrite A1 in C1. apply app_inv_head in C1. subst o1'. rewrite A3 in C3. injection C3 as <-.
    destruct (IH A2 HL2) as (o2 & l2 & k2 & B1 & B2 & B3 & B4 & B5); [tauto|].
    assert (W : exists k1, watch (found e) l1 = (found e, k1) /\ forall y, In y e -> on_pid (snd y) k1 = on_pid (snd y) l1).
    { assert (M : Forall on_media l1 -> exists k1, watch (found e) l1 = (found e, k1) /\ forall y, In y e -> on_pid (snd y) k1 = on_pid (snd y) l1).
      { intros HM. eexists. split; [apply watch_media, HM|]. intros y Hy. apply kept_on_pid, Hy. }
      destruct o; try exact (M C4). exists []. destruct (watch_tables _ _ C4) as [_ T]. split; [exact (T e He)|]. intros y Hy.
      destruct C4 as (sdt & pat & pmt & np & bp & nm & bm & pcr & -> & G1 & G2 & G3 & _). unfold on_pid. cbn [filter]. rewrite G1, G2, G3. destruct (He y Hy) as [-> | ->]; reflexivity. }
    destruct W as (k1 & W1 & W2).
    exists (o1 ++ o2), (l1 ++ l2), (k1 ++ k2). split; [rewrite B1, A1, app_assoc; reflexivity|]. split; [apply read_stream_app; assumption|]. split; [apply chunk_app; assumption|].
    split; [rewrite watch_app, W1, B4; reflexivity|]. intros y Hy. rewrite !on_pid_app, W2, B5 by exact Hy. reflexivity.
Qed.
Lemma announced_flags a b : announced (flags_of a b) = (if a then [(0x1b, 0x100)] else []) ++ (if b then [(0x0f, 0x101)] else []).
Proof. destruct a, b; reflexivity. Qed.

(** ** C176 *)
(** A player that starts with the output of a new mixer: it plays the streams whose configurations had been saved when SetTsHeader was called for
    the first time, and of these every frame sent after that call; nothing else, whatever is saved and announced later. *)
Theorem C176_player : forall pre post w0 x w rs, mix_run (new_tsmix, w0) (pre ++ XHeader :: post) = (x, w, rs) ->
  Forall same_writer (pre ++ XHeader :: post) -> ~ In XHeader pre -> never_fails w0 -> ~ In Panic rs ->
  let after := frames_sent (fst (mix_run (new_tsmix, w0) (pre ++ [XHeader]))) post in long_keys after ->
  exists out vs aus, w_out w = w_out w0 ++ out /\
    play out = Some ((if existsb saves_avc pre then [(0x1b, Some vs)] else []) ++ (if existsb saves_aac pre then [(0x0f, Some aus)] else [])) /\
    Forall2 carries (of_type 0 after) vs /\ Forall2 carries (of_type 1 after) aus.
Proof.
  intros pre post w0 x w rs E HQ HX HW HN after HL. subst after.
  assert (I0 : mix_inv new_tsmix) by (apply mixer_ok; exists [], w0, w0, []; reflexivity).
  apply Forall_app in HQ as [Q1 Q2]. inversion Q2 as [|? ? _ Q3]; subst. rewrite mix_run_app in E, HL. pose proof (run_before pre new_tsmix w0 I0 Q1 HX HW) as H1.
  destruct (mix_run (new_tsmix, w0) pre) as [[x1 w1] rs1] eqn:E1. cbn [mix_run] in E, HL. pose proof (step_packets x1 w1 XHeader) as H2. pose proof (mix_step_inv x1 w1 XHeader) as HI2.
  destruct (mix_step (x1, w1) XHeader) as [[x2 w2] r2] eqn:E2. cbn [fst app] in HL. cbn [fst] in HI2. pose proof (run_after (announced (x_types x1)) post) as H3. specialize (fun H => H3 H x2 w2).
  destruct (mix_run (x2, w2) post) as [[x3 w3] rs3] eqn:E3. injection E as <- <- <-. rewrite in_app_iff in HN. cbn [In] in HN.
  destruct H1 as (I1 & o1 & l1 & A1 & A2 & A3 & A4); [tauto|]. destruct (H2 I1 I A2) as (o2 & l2 & B1 & B2 & B3 & B4); [intros ->; tauto|].
  destruct (run_kept pre new_tsmix w0 x1 w1 rs1 false false None E1 eq_refl eq_refl) as [ET _]. cbn [orb] in ET.
  assert (He : forall y, In y (announced (x_types x1)) -> snd y = 0x100 \/ snd y = 0x101).
  { rewrite ET, announced_flags. intros y Hy. apply in_app_iff in Hy as [Hy|Hy].
    - destruct (existsb saves_avc pre); [destruct Hy as [<-|[]]; left; reflexivity|destruct Hy].
    - destruct (existsb saves_aac pre); [destruct Hy as [<-|[]]; right; reflexivity|destruct Hy]. }
  destruct (H3 He (HI2 I1) Q3 B2 HL) as (o3 & l3 & k3 & C1 & C2 & (_ & _ & (vs & V1 & V2) & (aus & W1 & W2)) & C4 & C5); [tauto|].
  assert (EA : fst (mix_run (new_tsmix, w0) (pre ++ [XHeader])) = (x2, w2)) by (rewrite mix_run_app, E1; cbn [mix_run]; rewrite E2; reflexivity). rewrite EA.
  exists (o1 ++ o2 ++ o3), vs, aus. split; [rewrite C1, B1, A1, !app_assoc; reflexivity|]. split; [|split; assumption].
  unfold play. rewrite (read_stream_app _ _ _ _ A3 (read_stream_app _ _ _ _ B3 C2)). rewrite watch_app, (watch_before l1 A4), watch_app. destruct (watch_tables _ _ B4) as [-> _]. rewrite C4. cbn [app].
  change (streams_of (found (announced (x_types x1)))) with (announced (x_types x1)). rewrite ET, announced_flags in *. f_equal.
  destruct (existsb saves_avc pre), (existsb saves_aac pre); cbn [app map fst] in *; repeat f_equal;
    try (rewrite (C5 (0x1b, 0x100)) by (cbn [In]; auto); exact V1); rewrite (C5 (0x0f, 0x101)) by (cbn [In]; auto); exact W1.
Qed.
Print Assumptions C176_player.
(** A live stream: configurations first, then tables, then everything else. The player finds every access unit and every AAC frame. *)
Lemma frames_types s os : Forall (fun f => sf_type f = 0 \/ sf_type f = 1) (frames_sent s os).
Proof.
  revert s. induction os as [|o os IH]; intros [x w]; cbn [frames_sent]; [constructor|]. apply Forall_app. split; [|apply IH]. destruct o as [p| | | | | |]; try constructor. cbn [fst snd].
  destruct (mix_mux x p w) as [[x1 p1] [w1 r1]] eqn:E. destruct r1 as [[]| | |]; try constructor; [|constructor]. cbn [sf_type].
  rewrite mux_result in E. destruct (codec_parse (x_codec x) p buffer0) as [c [wc r]] eqn:EC. destruct r as [[]| | |]; try discriminate. destruct (codec_accepts_can _ _ _ _ _ EC) as [H|[H _]]; [right|left]; exact H.
Qed.
Lemma no_frames fs : Forall (fun f => sf_type f = 0 \/ sf_type f = 1) fs -> of_type 0 fs = [] -> of_type 1 fs = [] -> fs = [].
Proof.
  intros H H0 H1. destruct fs as [|f fs]; [reflexivity|]. apply Forall_inv in H. unfold of_type in H0, H1. cbn [filter] in H0, H1. destruct H as [H|H]; rewrite H in H0, H1; discriminate.
Qed.
Lemma recorder_app a b : recorder (a ++ b) = recorder a ++ recorder b. Proof. apply flat_map_app. Qed.
Lemma remux_no_header q : ~ In XHeader (remux q).
Proof.
  unfold remux. intros H. repeat match type of H with context [match ?c with _ => _ end] => destruct c end; cbn [In] in H; intuition discriminate.
Qed.
Lemma recorder_no_header es : ~ In Tables es -> ~ In XHeader (recorder es).
Proof.
  intros H X. unfold recorder in X. apply in_flat_map in X as ([|p ms] & E1 & E2); [contradiction|]. exact (remux_no_header _ E2).
Qed.
Theorem C176_recording_played : forall pre post V A w0 x w rs, live None None pre [] [] -> live None None (pre ++ Tables :: post) V A -> ~ In Tables pre ->
  existsb saves_avc (recorder pre) = true -> existsb saves_aac (recorder pre) = true -> never_fails w0 ->
  mix_run (new_tsmix, w0) (recorder (pre ++ Tables :: post)) = (x, w, rs) ->
  exists out vs aus, w_out w = w_out w0 ++ out /\ play out = Some [(0x1b, Some vs); (0x0f, Some aus)] /\ Forall2 shows_unit V vs /\ Forall2 shows_frame A aus.
Proof.
  intros pre post V A w0 x w rs HP HL HT HV HA HW E.
  assert (S0 : sofar [] new_tsmix w0 None None) by (constructor; [exists w0, []; reflexivity|exact HW|constructor|exact Rm_new|reflexivity|exact I]).
  destruct (live_run _ _ _ _ _ HP _ _ _ S0) as (xp & wp & rp & P1 & _ & _ & _ & P5 & P6).
  assert (F0 : frames_sent (new_tsmix, w0) (recorder pre) = []).
  { apply no_frames; [apply frames_types|inversion P5; reflexivity|inversion P6; reflexivity]. }
  destruct (live_run _ _ _ _ _ HL _ _ _ S0) as (x' & w' & rs' & A1 & A2 & A3 & A4 & A5 & A6). rewrite A1 in E. injection E as -> -> ->.
  assert (HN : ~ In Panic rs) by (intros X; rewrite Forall_forall in A2; specialize (A2 _ X); discriminate).
  rewrite recorder_app in *. change (recorder (Tables :: post)) with (XHeader :: recorder post) in *.
  assert (EF : frames_sent (new_tsmix, w0) (recorder pre ++ XHeader :: recorder post) = frames_sent (fst (mix_run (new_tsmix, w0) (recorder pre ++ [XHeader]))) (recorder post)).
  { rewrite frames_app, F0, mix_run_app, P1. cbn [fst app frames_sent mix_run]. destruct (mix_step (xp, wp) XHeader) as [s r]. reflexivity. }
  rewrite EF in A4, A5, A6.
  destruct (C176_player _ _ _ _ _ _ A1 A3 (recorder_no_header _ HT) HW HN A4) as (out & vs & aus & B1 & B2 & B4 & B5). rewrite HV, HA in B2. exists out, vs, aus. split; [exact B1|]. split; [exact B2|]. split.
  - clear - A5 B4. revert V vs A5 B4. induction (of_type 0 (frames_sent _ (recorder post))) as [|f fs IH]; intros V vs A5 B4; inversion A5 as [|u ? V' ? (S1 & S2 & S3 & S4) A5']; inversion B4 as [|? e ? vs' (C1 & C2 & C3 & C4) B4']; subst; constructor; auto.
    rewrite S1 in *. change (0 =? 0) with true in *. cbn [andb] in C4. rewrite S2 in C3, C4. rewrite S3 in C4. rewrite S4 in C2. repeat split; try assumption. rewrite C4. destruct (au_pts u =? au_dts u); reflexivity.
  - clear - A6 B5. revert A aus A6 B5. induction (of_type 1 (frames_sent _ (recorder post))) as [|f fs IH]; intros A aus A6 B5; inversion A6 as [|u ? A' ? (S1 & S2 & S3) A6']; inversion B5 as [|? e ? vs' (C1 & C2 & C3 & C4) B5']; subst; constructor; auto.
    unfold shows_frame. destruct (af_config u) as [[ot i] ch]. rewrite S1 in *. change (1 =? 0) with false in *. cbn [andb] in C4. rewrite <- C2 in S3. split; [exact C1|]. split; [exists (sf_pts f); auto|]. auto.
Qed.
Print Assumptions C176_recording_played.

(** ** C175 *)
(** Every program map and every program association table that a mixer writes carries version number 0. *)
Lemma header_written os w0 x w1 rs w : mix_run (new_tsmix, w0) os = (x, w1, rs) -> never_fails w ->
  let '(x', w', r) := mix_step (x, w) XHeader in r <> Panic ->
  exists out l, w_out w' = w_out w ++ out /\ never_fails w' /\ read_stream out = Some l /\ table_packets (flags_of (existsb saves_avc os) (existsb saves_aac os)) l.
Proof.
  intros E HW. destruct (run_kept os new_tsmix w0 x w1 rs false false None E eq_refl eq_refl) as [ET _]. cbn [orb] in ET. rewrite <- ET.
  exact (step_packets x w XHeader (mixer_ok x (ex_intro _ os (ex_intro _ w0 (ex_intro _ w1 (ex_intro _ rs E))))) I HW).
Qed.
Theorem C175_version_refuted : forall os h w0 x1 w1 rs1 x w rs, mix_run (new_tsmix, w0) os = (x1, w1, rs1) -> existsb saves_aac os = false -> never_fails w1 ->
  mix_run (x1, w1) [XHeader; XSaveAAC h; XHeader] = (x, w, rs) -> ~ In Panic rs ->
  exists out1 out2 sdt1 pat1 pmt1 sdt2 pat2 pmt2 n1 n2 b1 b2 pcr1 pcr2 streams, w_out w = w_out w1 ++ out1 ++ out2 /\
    read_stream out1 = Some [sdt1; pat1; pmt1] /\ read_stream out2 = Some [sdt2; pat2; pmt2] /\
    read_section (ts_payload pmt1) = Some (2, n1, b1) /\ read_pmt b1 = Some (1, pcr1, streams) /\
    read_section (ts_payload pmt2) = Some (2, n2, b2) /\ read_pmt b2 = Some (1, pcr2, streams ++ [(0x0f, 0x101)]) /\
    version_of b1 = version_of b2.
Proof.
  intros os h w0 x1 w1 rs1 x w rs E1 HA HW E HN. pose proof (header_written os w0 x1 w1 rs1 w1 E1 HW) as H1. cbn [mix_run] in E.
  destruct (mix_step (x1, w1) XHeader) as [[x2 w2] r2] eqn:E2. destruct (mix_step (x2, w2) (XSaveAAC h)) as [[x3 w3] r3] eqn:E3. destruct (mix_step (x3, w3) XHeader) as [[x4 w4] r4] eqn:E4. injection E as <- <- <-. cbn [In] in HN.
  destruct H1 as (o1 & l1 & A1 & A2 & A3 & A4); [intros ->; tauto|].
  assert (W3 : w3 = w2) by (cbn [mix_step] in E3; destruct (mix_save_aac x2 h) as [[y p] r]; injection E3 as _ <- _; reflexivity). subst w3.
  assert (E5 : mix_run (new_tsmix, w0) (os ++ [XHeader; XSaveAAC h]) = (x3, w2, rs1 ++ [r2; r3])) by (rewrite mix_run_app, E1; cbn [mix_run]; rewrite E2, E3; reflexivity).
  pose proof (header_written _ _ _ _ _ w2 E5 A2) as H2. rewrite E4 in H2. destruct H2 as (o2 & l2 & B1 & B2 & B3 & B4); [intros ->; tauto|].
  destruct A4 as (s1 & a1 & m1 & n1 & p1 & k1 & b1 & c1 & -> & _ & _ & _ & _ & _ & _ & R1 & R2 & R3). destruct B4 as (s2 & a2 & m2 & n2 & p2 & k2 & b2 & c2 & -> & _ & _ & _ & _ & _ & _ & T1 & T2 & T3).
  rewrite !existsb_app in T2. rewrite announced_flags in R2, T2. cbn [existsb saves_avc saves_aac orb] in R2, T2. rewrite HA in *. cbn [orb] in *. rewrite orb_false_r in T2. rewrite app_nil_r in R2.
  exists o1, o2, s1, a1, m1, s2, a2, m2, k1, k2, b1, b2, c1, c2, (if existsb saves_avc os then [(0x1b, 0x100)] else []). split; [rewrite B1, A1, app_assoc; reflexivity|].
  split; [exact A3|]. split; [exact B3|]. split; [exact R1|]. split; [exact R2|]. split; [exact T1|]. split; [exact T2|]. congruence.
Qed.
Print Assumptions C175_version_refuted.
(** So audio that is configured after the first SetTsHeader is never played, however often the tables are repeated afterwards; and likewise video. *)
Theorem C175_late_stream_refuted : forall pre post w0 x w rs, mix_run (new_tsmix, w0) (pre ++ XHeader :: post) = (x, w, rs) ->
  Forall same_writer (pre ++ XHeader :: post) -> ~ In XHeader pre -> never_fails w0 -> ~ In Panic rs ->
  long_keys (frames_sent (fst (mix_run (new_tsmix, w0) (pre ++ [XHeader]))) post) ->
  exists out found, w_out w = w_out w0 ++ out /\ play out = Some found /\
    (existsb saves_aac pre = false -> ~ In 0x0f (map fst found)) /\ (existsb saves_avc pre = false -> ~ In 0x1b (map fst found)).
Proof.
  intros pre post w0 x w rs E HQ HX HW HN HL. destruct (C176_player _ _ _ _ _ _ E HQ HX HW HN HL) as (out & vs & aus & H1 & H2 & _). eexists out, _. split; [exact H1|]. split; [exact H2|].
  split; intros ->; [destruct (existsb saves_avc pre)|destruct (existsb saves_aac pre)]; cbn; intuition discriminate.
Qed.
Print Assumptions C175_late_stream_refuted.
(** Missing: the above. Proved: if no configuration of a new kind is saved in between, two program maps list the same streams. *)
Theorem C175_version_partial : forall os os2 w0 x1 w1 rs1 x w rs, mix_run (new_tsmix, w0) os = (x1, w1, rs1) -> never_fails w1 -> Forall same_writer os2 -> ~ In XHeader os2 ->
  (existsb saves_avc os2 = true -> existsb saves_avc os = true) -> (existsb saves_aac os2 = true -> existsb saves_aac os = true) ->
  mix_run (x1, w1) (XHeader :: os2 ++ [XHeader]) = (x, w, rs) -> ~ In Panic rs ->
  exists out1 out out2 sdt1 pat1 pmt1 sdt2 pat2 pmt2 n1 n2 b1 b2 pcr1 pcr2 streams, w_out w = w_out w1 ++ out1 ++ out ++ out2 /\
    read_stream out1 = Some [sdt1; pat1; pmt1] /\ read_stream out2 = Some [sdt2; pat2; pmt2] /\
    read_section (ts_payload pmt1) = Some (2, n1, b1) /\ read_pmt b1 = Some (1, pcr1, streams) /\
    read_section (ts_payload pmt2) = Some (2, n2, b2) /\ read_pmt b2 = Some (1, pcr2, streams) /\ version_of b1 = version_of b2.
Proof.
  intros os os2 w0 x1 w1 rs1 x w rs E1 HW HQ HX HV HA E HN. pose proof (header_written os w0 x1 w1 rs1 w1 E1 HW) as H1. cbn [mix_run] in E.
  destruct (mix_step (x1, w1) XHeader) as [[x2 w2] r2] eqn:E2.
  assert (I2 : mix_inv x2). { pose proof (mix_step_inv x1 w1 XHeader (mixer_ok x1 (ex_intro _ os (ex_intro _ w0 (ex_intro _ w1 (ex_intro _ rs1 E1)))))) as H. rewrite E2 in H. exact H. }
  rewrite mix_run_app in E. pose proof (fun H => run_before os2 x2 w2 I2 HQ HX H) as H3. destruct (mix_run (x2, w2) os2) as [[x3 w3] rs3] eqn:E3. cbn [mix_run] in E.
  destruct (mix_step (x3, w3) XHeader) as [[x4 w4] r4] eqn:E4. injection E as <- <- <-. cbn [In] in HN. rewrite in_app_iff in HN. cbn [In] in HN.
  destruct H1 as (o1 & l1 & A1 & A2 & A3 & A4); [intros ->; tauto|]. destruct (H3 A2) as (_ & o3 & l3 & C1 & C2 & _); [tauto|].
  assert (E5 : mix_run (new_tsmix, w0) (os ++ XHeader :: os2) = (x3, w3, rs1 ++ r2 :: rs3)) by (rewrite mix_run_app, E1; cbn [mix_run]; rewrite E2, E3; reflexivity).
  pose proof (header_written _ _ _ _ _ w3 E5 C2) as H2. rewrite E4 in H2. destruct H2 as (o2 & l2 & B1 & B2 & B3 & B4); [intros ->; tauto|].
  destruct A4 as (s1 & a1 & m1 & n1 & p1 & k1 & b1 & c1 & -> & _ & _ & _ & _ & _ & _ & R1 & R2 & R3). destruct B4 as (s2 & a2 & m2 & n2 & p2 & k2 & b2 & c2 & -> & _ & _ & _ & _ & _ & _ & T1 & T2 & T3).
  assert (EV : existsb saves_avc (os ++ XHeader :: os2) = existsb saves_avc os). { rewrite existsb_app. cbn [existsb saves_avc orb]. destruct (existsb saves_avc os2); [rewrite HV by reflexivity; reflexivity|apply orb_false_r]. }
  assert (EA : existsb saves_aac (os ++ XHeader :: os2) = existsb saves_aac os). { rewrite existsb_app. cbn [existsb saves_aac orb]. destruct (existsb saves_aac os2); [rewrite HA by reflexivity; reflexivity|apply orb_false_r]. }
  rewrite EV, EA in T2. exists o1, o3, o2, s1, a1, m1, s2, a2, m2, k1, k2, b1, b2, c1, c2, (announced (flags_of (existsb saves_avc os) (existsb saves_aac os))).
  split; [rewrite B1, C1, A1, !app_assoc; reflexivity|]. split; [exact A3|]. split; [exact B3|]. split; [exact R1|]. split; [exact R2|]. split; [exact T1|]. split; [exact T2|]. congruence.
Qed.
Print Assumptions C175_version_partial.
(** Metadata and both configurations, then tables, a key frame, an AAC frame, another frame, tables. *)
Example C176_example : let pre := [Body (body 2 [2; 0; 1; 65]) 0; Body (fst ex_cfg) 0; Body (fst ex_aac_cfg) 0] in
  live None None pre [] [] /\ ~ In Tables pre /\ existsb saves_avc (recorder pre) = true /\ existsb saves_aac (recorder pre) = true /\
  exists post, pre ++ Tables :: post = ex_live.
Proof.
  cbv zeta. split; [|split; [|split; [|split; [|eexists; reflexivity]]]].
  - apply Lv_other; [discriminate|discriminate|apply bytes_dec; reflexivity|].
    eapply Lv_avc_config with (r := ex_header ex_sps ex_pps []) (sps := ex_sps) (pps := ex_pps) (ext := []); [apply bytes_dec; reflexivity|split; [reflexivity|]; exists 0x17, 0, 0, 0; unfold byte; repeat (split; [lia|]); reflexivity|apply Hd_record; unfold len; cbn; lia|].
    eapply Lv_aac_config with (c0 := 0x12) (c1 := 0x10) (more := []); [apply bytes_dec; reflexivity|split; [reflexivity|]; exists 0xaf; unfold byte; repeat (split; [lia|]); reflexivity|reflexivity|lia|lia|lia|]. constructor.
  - cbn [In]. intuition discriminate.
  - vm_compute. reflexivity.
  - vm_compute. reflexivity.
Qed.
(** The AAC configuration comes after the first tables: no call fails, the tables are repeated, and the player has video only. *)
Example C175_example : let pre := recorder [Body (fst ex_cfg) 0] in let post := recorder [Body (fst ex_aac_cfg) 0; Tables; Body (ex_unit true 0 ex_idr168) 40; Body (body 1 [0xaf; 1; 7; 7]) 41] in
  existsb saves_avc pre = true /\ existsb saves_aac pre = false /\ Forall same_writer (pre ++ XHeader :: post) /\ ~ In XHeader pre /\
  let '(x, w, rs) := mix_run (new_tsmix, buffer0) (pre ++ XHeader :: post) in
  rs = repeat (Ok tt) 8 /\ option_map (map fst) (play (w_out w)) = Some [0x1b] /\
  option_map (@length _) (demultiplex 0x101 (w_out w)) = Some 1%nat.
Proof.
  cbv zeta. split; [vm_compute; reflexivity|]. split; [vm_compute; reflexivity|]. split; [vm_compute; repeat constructor|]. split; [apply recorder_no_header; cbn [In]; intuition discriminate|].
  vm_compute. repeat split.
Qed.
