(** Lemmas on the size of a transport stream. *)
From Verif Require Import Base.Go Base.GoFacts Base.IO Proofs.IOFacts Model.AmfTypes Model.Packet Model.Parsers Model.Ts
  Spec.Parsers Spec.Codec Spec.Ts Spec.TsClock Proofs.Parsers Proofs.TsPackets Proofs.TsTables Proofs.TsMore Props.Parsers Props.Codec Props.Ts Props.TsMixer Props.Remux Props.TsGaps Spec.Mixer Props.Mixer Spec.TsSize.
Import ListNotations.
Local Open Scope list_scope.
Local Open Scope Z_scope.

Definition res_packets (o : mix_op) (r : res unit) : Z := match o, r with XHeader, Ok _ => 3 | _, _ => 0 end.
Lemma sum_app a b : sum (a ++ b) = sum a + sum b.
Proof. unfold sum. induction a as [|x a IH]; cbn [app fold_right]; [reflexivity|rewrite IH; lia]. Qed.
Lemma step_size x w o : mix_inv x -> no_writer_set o -> never_fails w ->
  let '(x', w', r) := mix_step (x, w) o in
  r <> Panic -> exists out n, w_out w' = w_out w ++ out /\ never_fails w' /\ w_calls w' = (w_calls w + n)%nat /\ len out = 188 * Z.of_nat n /\
    Z.of_nat n = res_packets o r + sum (map frame_packets (frames_sent (x, w) [o])).
Proof.
  intros HI HQ HW. pose proof HI as (HM & _). unfold frames_sent. rewrite app_nil_r. cbn [fst snd].
  assert (HNIL : forall z, z = 0 -> exists out n, w_out w = w_out w ++ out /\ never_fails w /\ w_calls w = (w_calls w + n)%nat /\ len out = 188 * Z.of_nat n /\ Z.of_nat n = z + sum (map frame_packets [])).
  { intros z ->. exists [], 0%nat. rewrite app_nil_r. split; [reflexivity|]. split; [exact HW|]. split; [lia|]. split; reflexivity. }
  destruct o as [p|md|p|p| |p a b|w2]; cbn [no_writer_set] in HQ; try contradiction; cbn [mix_step].
  - rewrite mux_result. destruct (codec_parse (x_codec x) p buffer0) as [c [wc r]] eqn:EC. destruct r as [[]| | |]; try (intros _; apply HNIL; reflexivity).
    pose proof (codec_accepts_can _ _ _ _ _ EC) as HC. set (q := set_media (w_out wc) p) in *. assert (HCq : can_mux q) by (apply set_media_can, HC).
    assert (HT : p_type q = PktVideo \/ p_type q = PktAudio) by (destruct HC as [H|[H _]]; [right|left]; exact H).
    destruct (ts_answers (x_muxer x) q (x_dts x) (x_pts x) w HM HCq) as [_ TP]. destruct (ts_mux (x_muxer x) q (x_dts x) (x_pts x) w) as [k [w1 r1]] eqn:EX. cbn [snd] in TP. intros Hr.
    destruct (mux_frame (x_muxer x) q (x_dts x) (x_pts x) w HM HCq) as (m' & w' & out & p0 & l & E & E1 & E2 & E3 & E4 & E5 & E6 & E7 & E8 & E9 & _ & _ & _ & E13 & E14).
    { intros HK HH. apply Hr, TP. auto. } { exact HW. }
    rewrite E in EX. injection EX as <- <- <-. exists out, (length (p0 :: l)). split; [exact E1|]. split; [exact E2|]. split; [exact E13|]. split; [exact (read_stream_len _ _ E3)|].
    change (Z.of_nat (length (p0 :: l))) with (len (p0 :: l)). rewrite E14, total_len by exact HT. cbn [res_packets map sum fold_right]. rewrite Z.add_0_r, Z.add_0_l.
    unfold frame_packets, frame_head. cbn [sf_type sf_key sf_pts sf_dts sf_media]. unfold q at 2. rewrite keyed_key. reflexivity.
  - destruct (mix_save_metadata x md). intros _. apply HNIL. reflexivity.
  - destruct (mix_save_avc x p) as [[x1 p1] r1]. intros _. apply HNIL. reflexivity.
  - destruct (mix_save_aac x p) as [[x1 p1] r1]. intros _. apply HNIL. reflexivity.
  - rewrite set_header_tables. destruct (Z_le_dec (len (x_meta x)) 163) as [HLm|HLm].
    + destruct (tables_ok x HM HLm) as (k & s & a & b & ps & pa & pb & ba & bb & E & K & S1 & A1 & P1 & _). rewrite E. rewrite run_plan_ok by exact HW. intros _.
      eexists _, 3%nat. split; [reflexivity|]. split; [exact HW|]. split; [reflexivity|]. split; [|reflexivity]. cbn [concat]. rewrite !len_app. 
      apply read_packet_len in S1, A1, P1. rewrite S1, A1, P1. reflexivity.
    + destruct (tables_panic x HM ltac:(lia)) as (k & E). rewrite E. cbn [bind]. intros H. congruence.
  - destruct (mix_update x p a b). intros _. apply HNIL. reflexivity.
Qed.
Lemma run_size os : forall x w, mix_inv x -> Forall no_writer_set os -> never_fails w ->
  let '(x', w', rs) := mix_run (x, w) os in
  ~ In Panic rs -> exists out n, w_out w' = w_out w ++ out /\ w_calls w' = (w_calls w + n)%nat /\ len out = 188 * Z.of_nat n /\
    Z.of_nat n = sum (map (fun q => res_packets (fst q) (snd q)) (combine os rs)) + sum (map frame_packets (frames_sent (x, w) os)).
Proof.
  induction os as [|o os IH]; intros x w HI HQ HW; cbn [mix_run].
  - intros _. exists [], 0%nat. rewrite app_nil_r. split; [reflexivity|]. split; [lia|]. split; reflexivity.
  - assert (EF : frames_sent (x, w) (o :: os) = frames_sent (x, w) [o] ++ frames_sent (fst (mix_step (x, w) o)) os) by (cbn [frames_sent]; rewrite app_nil_r; reflexivity).
    rewrite EF. inversion HQ as [|? ? Q1 Q2]; subst. pose proof (step_size x w o HI Q1 HW) as H1. pose proof (mix_step_inv x w o HI) as HI1. destruct (mix_step (x, w) o) as [[x1 w1] r]. cbn [fst] in *.
    specialize (IH x1 w1 HI1 Q2). destruct (mix_run (x1, w1) os) as [[x2 w2] rs]. intros HN. cbn [In] in HN.
    destruct H1 as (o1 & n1 & A1 & A2 & A3 & A4 & A5); [intros ->; tauto|]. destruct (IH A2) as (o2 & n2 & B1 & B2 & B3 & B4); [tauto|].
    exists (o1 ++ o2), (n1 + n2)%nat. split; [rewrite B1, A1, app_assoc; reflexivity|]. split; [lia|]. rewrite len_app. split; [lia|]. rewrite map_app, sum_app. cbn [combine map fst snd sum fold_right]. unfold sum in *. lia.
Qed.
Lemma res_verdict os : forall vs, map (fun q => res_packets (fst q) (snd q)) (combine os (map verdict_res vs)) = map (fun q => table_packets (fst q) (snd q)) (combine os vs).
Proof. induction os as [|o os IH]; intros [|v vs]; try reflexivity. cbn [map combine fst snd]. rewrite IH. f_equal. destruct o, v; reflexivity. Qed.
