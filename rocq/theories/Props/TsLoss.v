(** Property C206: a receiver of a transport stream that loses packets. *)
From Verif Require Import Base.Go Base.GoFacts Base.IO Proofs.IOFacts Model.AmfTypes Model.Packet Model.Ts Spec.Ts Spec.TsLoss Proofs.TsLoss
  Props.Ts Props.TsMixer Props.Remux Spec.Mixer.

Definition stream_of (pid ty : Z) : Prop := pid = 0x100 /\ ty = 0 \/ pid = 0x101 /\ ty = 1.
Lemma no_header_same o : no_header_saved o -> same_writer o. Proof. destruct o; cbn; tauto. Qed.
(** What the two earlier theorems say of one and the same output. *)
Lemma both_views os x w x' w' rs : mixer_used x -> Forall no_header_saved os -> never_fails w -> mix_run (x, w) os = (x', w', rs) -> ~ In Panic rs -> long_keys (frames_sent (x, w) os) ->
  exists out pkts, w_out w' = w_out w ++ out /\ read_stream out = Some pkts /\ forall pid ty, stream_of pid ty ->
    exists c es, 0 <= c < 16 /\ continuous c (on_pid pid pkts) /\ all_pes (units (on_pid pid pkts)) = Some es /\ Forall2 carries (of_type ty (frames_sent (x, w) os)) es.
Proof.
  intros Hx HQ HW E HN HL. destruct (C49_mixer_continuity_partial x os w x' w' rs Hx HQ HW E HN) as (out & pkts & E1 & E2 & _ & _ & V & A & _).
  assert (HQ' : Forall same_writer os) by (eapply Forall_impl; [|exact HQ]; exact no_header_same).
  destruct (C132_stream_read_back os x w x' w' rs Hx HQ' HW E HN HL) as (out' & vs & aus & E1' & D1 & D2 & F1 & F2).
  rewrite E1 in E1'. apply app_inv_head in E1'. subst out'. unfold demultiplex in D1, D2. rewrite E2 in D1, D2. exists out, pkts. split; [exact E1|]. split; [exact E2|].
  intros pid ty [[-> ->]|[-> ->]]; (eexists; eexists; split; [|split; [eassumption|split; eassumption]]); apply Z.mod_pos_bound; lia.
Qed.
Lemma forall2_length {A B} (R : A -> B -> Prop) l m : Forall2 R l m -> length l = length m.
Proof. induction 1; cbn [length]; congruence. Qed.

(** ** C206: a receiver gets exactly the frames that arrived whole, if the counters can tell the gaps. *)
Theorem C206_loss : forall os x w x' w' rs, mixer_used x -> Forall no_header_saved os -> never_fails w ->
  mix_run (x, w) os = (x', w', rs) -> ~ In Panic rs -> long_keys (frames_sent (x, w) os) ->
  exists out pkts, w_out w' = w_out w ++ out /\ read_stream out = Some pkts /\
  forall arrives pid ty, length arrives = length pkts -> stream_of pid ty ->
  let sent := filter (fun x => ts_pid (snd x) =? pid) (combine arrives pkts) in noticeable (map fst sent) ->
  let frames := of_type ty (frames_sent (x, w) os) in
  length (intact sent) = length frames /\
  exists es, all_pes (careful None (on_pid pid (pick arrives pkts))) = Some es /\ Forall2 carries (pick (intact sent) frames) es.
Proof.
  intros os x w x' w' rs Hx HQ HW E HN HL. destruct (both_views os x w x' w' rs Hx HQ HW E HN HL) as (out & pkts & E1 & E2 & G). exists out, pkts. split; [exact E1|]. split; [exact E2|].
  intros arrives pid ty HA HS sent HB frames. destruct (G pid ty HS) as (c & es & Hc & HC & HP & HF). destruct (pid_pick pid arrives pkts HA) as (sub & S1 & S2 & S3). fold sent in S2. subst sub.
  split; [rewrite intact_length, S1, <- (all_pes_length _ _ HP); symmetry; exact (forall2_length _ _ _ HF)|].
  exists (pick (intact sent) es). rewrite S3. rewrite (careful_start sent c Hc) by (try exact HB; rewrite S1; exact HC). split; [apply pick_pes; rewrite S1; exact HP|apply pick_related, HF].
Qed.
Print Assumptions C206_loss.

(** Starting to receive at any packet: the frames that begin from there on, but for the last one, which nothing follows. *)
Theorem C206_join : forall os x w x' w' rs, mixer_used x -> Forall no_header_saved os -> never_fails w ->
  mix_run (x, w) os = (x', w', rs) -> ~ In Panic rs -> long_keys (frames_sent (x, w) os) ->
  exists out pkts, w_out w' = w_out w ++ out /\ read_stream out = Some pkts /\
  forall missed heard pid ty, pkts = missed ++ heard -> stream_of pid ty ->
  exists es, all_pes (careful None (on_pid pid heard)) = Some es /\
    Forall2 carries (removelast (skipn (length (filter ts_pusi (on_pid pid missed))) (of_type ty (frames_sent (x, w) os)))) es.
Proof.
  intros os x w x' w' rs Hx HQ HW E HN HL. destruct (both_views os x w x' w' rs Hx HQ HW E HN HL) as (out & pkts & E1 & E2 & G). exists out, pkts. split; [exact E1|]. split; [exact E2|].
  intros missed heard pid ty -> HS. destruct (G pid ty HS) as (c & es & Hc & HC & HP & HF). unfold on_pid in *. rewrite filter_app in HC, HP. fold (on_pid pid missed) in *. fold (on_pid pid heard) in *.
  destruct (continuous_app _ _ _ HC) as (c' & Hc' & HC'). specialize (Hc' Hc). rewrite (careful_whole _ c' Hc' HC'). rewrite <- (units_split (on_pid pid missed) (on_pid pid heard)).
  eexists. split; [apply removelast_pes, skipn_pes; exact HP|]. apply removelast_related, skipn_related, HF.
Qed.
Print Assumptions C206_join.

(** Which losses the counters tell: two packets on one PID follow each other for the receiver exactly if a multiple of 16 packets
    between them is lost. *)
Theorem C206_noticed : forall os x w x' w' rs, mixer_used x -> Forall no_header_saved os -> never_fails w ->
  mix_run (x, w) os = (x', w', rs) -> ~ In Panic rs -> long_keys (frames_sent (x, w) os) ->
  exists out pkts, w_out w' = w_out w ++ out /\ read_stream out = Some pkts /\
  forall pid ty before q1 lost q2 after, stream_of pid ty -> on_pid pid pkts = before ++ q1 :: lost ++ q2 :: after ->
    (ts_cc q2 = (ts_cc q1 + 1) mod 16 <-> len lost mod 16 = 0).
Proof.
  intros os x w x' w' rs Hx HQ HW E HN HL. destruct (both_views os x w x' w' rs Hx HQ HW E HN HL) as (out & pkts & E1 & E2 & G). exists out, pkts. split; [exact E1|]. split; [exact E2|].
  intros pid ty before q1 lost q2 after HS EP. destruct (G pid ty HS) as (c & es & Hc & HC & _).
  rewrite (continuous_at _ c before q1 (lost ++ q2 :: after) EP HC Hc).
  assert (EP' : on_pid pid pkts = (before ++ q1 :: lost) ++ q2 :: after) by (rewrite EP, <- app_assoc; reflexivity).
  rewrite (continuous_at _ c _ q2 after EP' HC Hc). unfold len. rewrite app_length. cbn [length]. rewrite Zplus_mod_idemp_l. clear. set (b := Z.of_nat (length before)). set (l := Z.of_nat (length lost)).
  replace (Z.of_nat (length before + S (length lost))) with (b + 1 + l) by lia. split; intros H; Z.div_mod_to_equations; lia.
Qed.
Print Assumptions C206_noticed.

(** A mixer that knows its AAC configuration sends four audio frames, of one, two, one and one packets, behind the tables. The second
    packet of the second frame is lost: the first and the third frame are received, the fourth may not be complete. *)
Definition aac206 (n : nat) : packet := body 1 ([0xaf; 1] ++ repeat 7 n).
Definition calls206 : list mix_op := XHeader :: remuxed [(aac206 2, 23); (aac206 200, 46); (aac206 4, 69); (aac206 5, 92)].
Definition start206 : tsmix := fst (fst (mix_run (new_tsmix, buffer0) (remuxed [ex_aac_cfg]))).
Example C206_example : mixer_used start206 /\ Forall no_header_saved calls206 /\ long_keys (frames_sent (start206, buffer0) calls206) /\
  exists x' w' pkts, mix_run (start206, buffer0) calls206 = (x', w', repeat (Ok tt) 9) /\ read_stream (w_out w') = Some pkts /\
  let arrives := [true; true; true; true; true; false; true; true] in
  let sent := filter (fun x => ts_pid (snd x) =? 0x101) (combine arrives pkts) in
  length arrives = length pkts /\ noticeable (map fst sent) /\ intact sent = [true; false; true; false] /\
  map (fun f => len (sf_media f)) (pick (intact sent) (of_type 1 (frames_sent (start206, buffer0) calls206))) = [9; 11].
Proof.
  split; [|split; [|split]].
  - destruct (mix_run (new_tsmix, buffer0) (remuxed [ex_aac_cfg])) as [[x w] rs] eqn:E. exists (remuxed [ex_aac_cfg]), buffer0, w, rs. unfold start206. rewrite E. reflexivity.
  - vm_compute. repeat constructor.
  - vm_compute. repeat (constructor; [discriminate|]). constructor.
  - destruct (mix_run (start206, buffer0) calls206) as [[x' w'] rs] eqn:E. vm_compute in E. injection E as <- <- <-. eexists; eexists; eexists. split; [reflexivity|]. split; [vm_compute; reflexivity|].
    cbv zeta. split; [reflexivity|]. split; [|split; vm_compute; reflexivity].
    match goal with |- noticeable ?l => let v := eval vm_compute in l in change l with v end. intros a n b H1 H2.
    assert (L : (n < 16)%nat) by (apply (f_equal (@length bool)) in H1; rewrite app_length in H1; cbn [length] in H1; rewrite app_length, repeat_length in H1; lia). rewrite Nat.mod_small in H2 by exact L. exact H2.
Qed.
