(** Properties C177 and C178: the clock of the stream a TS Mixer writes. *)
From Coq Require Import String.
From Verif Require Import Base.Go Base.GoFacts Base.IO Proofs.IOFacts Model.AmfTypes Model.Packet Model.Flv Model.Parsers Model.Crc32 Model.Ts
  Spec.Flv Spec.Crc32 Spec.Parsers Spec.Ts Spec.Pcr Proofs.Crc32 Proofs.Flv Proofs.Parsers Proofs.TsPackets Proofs.TsTables Proofs.TsMore Props.Flv Props.Parsers Props.Ts Props.TsMixer Props.Remux Spec.Mixer.
Import ListNotations.
Local Open Scope list_scope.
Local Open Scope Z_scope.
Local Ltac Zify.zify_post_hook ::= Z.div_mod_to_equations.

(** Every packet's adaptation field can be read, and random access points are the packets with a clock reference. *)
Definition clocked (q : tspkt) : Prop := packet_mark q = Some (false, None) \/ exists c, packet_mark q = Some (true, Some c).
Lemma clocks_app a b : clocks (a ++ b) = clocks a ++ clocks b. Proof. apply flat_map_app. Qed.
Lemma clocks_none l : Forall (fun q => packet_mark q = Some (false, None)) l -> clocks l = [].
Proof. induction 1 as [|q l Hq _ IH]; [reflexivity|]. unfold clocks in *. cbn [flat_map]. rewrite Hq, IH. reflexivity. Qed.
Definition clocks_for (fs : list sent_frame) : list (Z * (Z * Z)) := map (fun f => (0x100, (sf_dts f, 0))) (filter sf_key fs).
Lemma step_clocks x w o : mix_inv x -> same_writer o -> never_fails w ->
  let '(x', w', r) := mix_step (x, w) o in
  r <> Panic -> exists out l, w_out w' = w_out w ++ out /\ never_fails w' /\ read_stream out = Some l /\ Forall clocked l /\ clocks l = clocks_for (frames_sent (x, w) [o]).
Proof.
  intros HI HQ HW. pose proof HI as (HM & _ & _ & HDts & _ & _). unfold frames_sent. rewrite app_nil_r. cbn [fst snd].
  assert (HNIL : forall x1 : tsmix, exists out l, w_out w = w_out w ++ out /\ never_fails w /\ read_stream out = Some l /\ Forall clocked l /\ clocks l = clocks_for []).
  { intros _. exists [], []. rewrite app_nil_r. split; [reflexivity|]. split; [exact HW|]. split; [reflexivity|]. split; [constructor|reflexivity]. }
  destruct o as [p|md|p|p| |p a b|w2]; try contradiction HQ; cbn [mix_step].
  - rewrite mux_result in *. destruct (codec_parse (x_codec x) p buffer0) as [c [wc r]] eqn:EC. destruct r as [[]| | |]; try (intros _; apply HNIL; exact x).
    pose proof (codec_accepts_can _ _ _ _ _ EC) as HC. set (q := set_media (w_out wc) p) in *. assert (HCq : can_mux q) by (apply set_media_can, HC).
    destruct (ts_answers (x_muxer x) q (x_dts x) (x_pts x) w HM HCq) as [_ TP]. destruct (ts_mux (x_muxer x) q (x_dts x) (x_pts x) w) as [k [w1 r1]] eqn:EX. cbn [snd] in TP. intros Hr.
    destruct (mux_frame (x_muxer x) q (x_dts x) (x_pts x) w HM HCq) as (m' & w' & out & p0 & l & E & E1 & E2 & E3 & E4 & E5 & E6 & E7 & E8 & _).
    { intros HK HH. apply Hr, TP. auto. } { exact HW. }
    rewrite E in EX. injection EX as <- <- <-. exists out, (p0 :: l). split; [exact E1|]. split; [exact E2|]. split; [exact E3|].
    assert (HKy : is_key q = keyed p). { unfold q. rewrite set_media_key. unfold is_key, keyed. destruct (video_of p) as [v|]; [reflexivity|]. destruct (p_type p =? PktVideo); reflexivity. }
    assert (HP : Forall (fun q => packet_mark q = Some (false, None)) l) by (eapply Forall_impl; [|exact E8]; intros y (_ & A); exact A).
    split.
    + apply Forall_cons; [unfold clocked; rewrite E7; destruct (is_key q); [right; eexists; reflexivity|left; reflexivity]|]. eapply Forall_impl; [|exact HP]. intros y Hy. left. exact Hy.
    + unfold clocks. cbn [flat_map]. change (flat_map _ l) with (clocks l). rewrite (clocks_none l HP), E7, app_nil_r. unfold clocks_for. cbn [filter sf_key]. rewrite <- HKy.
      destruct (is_key q) eqn:EK; [|reflexivity]. cbn [map sf_dts]. rewrite Z.mod_small by exact HDts. apply Forall_inv in E4. rewrite E4. unfold pid_of, lo_of. unfold is_key in EK. apply andb_true_iff in EK as [-> _]. reflexivity.
  - destruct (mix_save_metadata x md). intros _. apply HNIL. exact x.
  - destruct (mix_save_avc x p) as [[x1 p1] r1]. intros _. apply HNIL. exact x.
  - destruct (mix_save_aac x p) as [[x1 p1] r1]. intros _. apply HNIL. exact x.
  - rewrite set_header_tables. destruct (Z_le_dec (len (x_meta x)) 163) as [HLm|HLm].
    + destruct (tables_ok x HM HLm) as (k & s & a & b & ps & pa & pb & ba & bb & E & K & S1 & A1 & P1 & _). rewrite E. rewrite run_plan_ok by exact HW. cbn [fst].
      intros _. eexists _, _. split; [reflexivity|]. split; [exact HW|]. split.
      * cbn [concat]. rewrite app_nil_r. replace (s ++ a ++ b) with (s ++ a ++ b ++ []) by (rewrite app_nil_r; reflexivity). apply read_stream_cons; [eapply read_packet_len, S1|exact S1|]. apply read_stream_cons; [eapply read_packet_len, A1|exact A1|]. apply read_stream_cons; [eapply read_packet_len, P1|exact P1|]. reflexivity.
      * split; [repeat (apply Forall_cons; [left; reflexivity|]); constructor|reflexivity].
    + destruct (tables_panic x HM ltac:(lia)) as (k & E). rewrite E. cbn [bind]. intros H. congruence.
  - destruct (mix_update x p a b). intros _. apply HNIL. exact x.
Qed.

(** ** C177 *)
(** The clock references in what any history of a Mixer writes: one for every key frame sent, on the video PID, with the key frame's decoding time and
    extension 0. They are the random access points. *)
Theorem C177_clock_references : forall os w0 x w rs, mix_run (new_tsmix, w0) os = (x, w, rs) -> Forall same_writer os -> never_fails w0 -> ~ In Panic rs ->
  exists out l, w_out w = w_out w0 ++ out /\ read_stream out = Some l /\ Forall clocked l /\
    clocks l = map (fun f => (0x100, (sf_dts f, 0))) (filter sf_key (frames_sent (new_tsmix, w0) os)).
Proof.
  assert (G : forall os x w, mix_inv x -> Forall same_writer os -> never_fails w ->
    let '(x', w', rs) := mix_run (x, w) os in ~ In Panic rs -> exists out l, w_out w' = w_out w ++ out /\ read_stream out = Some l /\ Forall clocked l /\ clocks l = clocks_for (frames_sent (x, w) os)).
  { induction os as [|o os IH]; intros x w HI HQ HW; cbn [mix_run].
    - intros _. exists [], []. rewrite app_nil_r. split; [reflexivity|]. split; [reflexivity|]. split; [constructor|reflexivity].
    - assert (EF : frames_sent (x, w) (o :: os) = frames_sent (x, w) [o] ++ frames_sent (fst (mix_step (x, w) o)) os) by (cbn [frames_sent]; rewrite app_nil_r; reflexivity).
      rewrite EF. inversion HQ as [|? ? Q1 Q2]; subst. pose proof (step_clocks x w o HI Q1 HW) as H1. pose proof (mix_step_inv x w o HI) as HI1. destruct (mix_step (x, w) o) as [[x1 w1] r]. cbn [fst] in *.
      specialize (IH x1 w1 HI1 Q2). destruct (mix_run (x1, w1) os) as [[x2 w2] rs]. intros HN. cbn [In] in HN.
      destruct H1 as (o1 & l1 & A1 & A2 & A3 & A4 & A5); [intros ->; tauto|]. destruct (IH A2) as (o2 & l2 & B1 & B2 & B3 & B4); [tauto|].
      exists (o1 ++ o2), (l1 ++ l2). split; [rewrite B1, A1, app_assoc; reflexivity|]. split; [apply read_stream_app; assumption|]. split; [apply Forall_app; split; assumption|].
      rewrite clocks_app, A5, B4. unfold clocks_for. rewrite filter_app, map_app. reflexivity. }
  intros os w0 x w rs E HQ HW HN. specialize (G os new_tsmix w0 new_mix_inv HQ HW). rewrite E in G. exact (G HN).
Qed.
Print Assumptions C177_clock_references.

(** Key frames at 0 s and at 10 s, and a frame in between: the clock references are 10 s apart. *)
Definition ex_frame (key : bool) (ms : Z) : list mix_op :=
  let p := mkP 0 0 0 0 (Some (mkH (Some (mkVH key (negb key) false false true 7 0)) None)) [] (Some ([0; 0; 0; 1; if key then 0x65 else 0x41] ++ repeat 7 200)) in [XUpdate p ms 0; XMux p].
Definition ex_slow : list mix_op := ex_frame true 0 ++ ex_frame false 5000 ++ ex_frame true 10000.
Theorem C177_interval_refuted : exists os, let '(x, w, rs) := mix_run (new_tsmix, buffer0) os in
  Forall (fun r => r = Ok tt) rs /\ Forall same_writer os /\
  exists l, read_stream (w_out w) = Some l /\ clocks l = [(0x100, (0, 0)); (0x100, (900000, 0))] /\ ~ clock_often (clocks l).
Proof.
  exists ex_slow. destruct (mix_run (new_tsmix, buffer0) ex_slow) as [[x w] rs] eqn:E. vm_compute in E. injection E as _ <- <-. split; [repeat constructor|]. split; [repeat constructor|].
  match goal with |- exists l, ?r = _ /\ _ => destruct r as [l|] eqn:R end; [|vm_compute in R; discriminate]. vm_compute in R. injection R as <-. eexists. split; [reflexivity|]. split; [vm_compute; reflexivity|].
  intros H. vm_compute in H. destruct H as [H _]. apply H. reflexivity.
Qed.
Print Assumptions C177_interval_refuted.
(** In general the distance between clock references is that between key frames: whatever is sent after a key frame, up to the next one, adds none. *)
Theorem C177_interval_partial : forall os w0 x w rs, mix_run (new_tsmix, w0) os = (x, w, rs) -> Forall same_writer os -> never_fails w0 -> ~ In Panic rs ->
  exists out l, w_out w = w_out w0 ++ out /\ read_stream out = Some l /\
    (clock_often (clocks l) <-> clock_often (map (fun f => (0x100, (sf_dts f, 0))) (filter sf_key (frames_sent (new_tsmix, w0) os)))).
Proof.
  intros os w0 x w rs E HQ HW HN. destruct (C177_clock_references os w0 x w rs E HQ HW HN) as (out & l & E1 & E2 & _ & E3). exists out, l. split; [exact E1|]. split; [exact E2|]. rewrite E3. reflexivity.
Qed.
Print Assumptions C177_interval_partial.

(** ** C178 *)
(** By the clock in the stream, the decoding time of every key frame is that of its first packet; at that time the rest of it has not arrived. *)
Theorem C178_in_time_refuted : forall m p pid dts pts w, muxer_used m -> frame p pid true -> 184 <= pes_total p dts pts -> 0 <= dts < 2 ^ 33 -> 0 <= pts < 2 ^ 33 -> never_fails w ->
  exists m' w' out p0 p1 rest e, ts_mux m p dts pts w = (m', (w', Ok tt)) /\ w_out w' = w_out w ++ out /\ read_stream out = Some (p0 :: p1 :: rest) /\
    read_pes (concat (map ts_payload (p0 :: p1 :: rest))) = Some e /\ decode_time e = Some dts /\ packet_pcr p0 = Some (Some (dts, 0)).
Proof.
  intros m p pid dts pts w Hm HF HK HD HP HW. destruct (frame_can _ _ _ HF) as (HC & EK & EP & HT).
  destruct (mux_frame m p dts pts w (used_ok m Hm) HC) as (m' & w' & o & p0 & l & E & E1 & E2 & E3 & E4 & E5 & E6 & E7 & E8 & E9 & _ & _ & _ & _ & E14).
  { rewrite EK, total_len by exact HT. lia. } { exact HW. }
  rewrite EK in E7, E9, E14. rewrite total_len in E9, E14 by exact HT. cbn [andb] in E9. replace (pes_total p dts pts <? 184) with false in E9 by lia. cbn [app] in E9.
  destruct l as [|p1 l]. { exfalso. unfold len in E14. cbn [length] in E14. lia. }
  eexists m', w', o, p0, p1, l, _. split; [exact E|]. split; [exact E1|]. split; [exact E3|]. rewrite E9. split; [apply read_pes_ok, HT|]. split.
  - unfold decode_time. cbn [pes_dts pes_pts option_map snd]. rewrite both_video, !stamp_small by assumption. destruct HF as [(_ & _ & X)|(E0 & _ & _)]; [discriminate X|]. rewrite E0. cbn [andb Z.eqb].
    destruct (Z.eqb_spec pts dts) as [->|]; reflexivity.
  - rewrite (mark_pcr _ _ _ E7). rewrite Z.mod_small by exact HD. reflexivity.
Qed.
Print Assumptions C178_in_time_refuted.
Example C178_example : frame (ex_video true 1000) 0x100 true /\ 184 <= pes_total (ex_video true 1000) 90 180 /\ muxer_used new_tsmux /\ never_fails buffer0.
Proof. split; [|split; [|split]]; [apply C37_example|apply C37_example|exists [], buffer0, buffer0, []; reflexivity|intros n; reflexivity]. Qed.
