(** Property C202: how much a TS Mixer has written, from the history of calls alone. *)
From Coq Require Import String.
From Verif Require Import Base.Go Base.GoFacts Base.IO Proofs.IOFacts Model.AmfTypes Model.Packet Model.Parsers Model.Ts
  Spec.Parsers Spec.Codec Spec.Ts Spec.TsClock Proofs.Parsers Proofs.TsPackets Proofs.TsTables Proofs.TsMore Props.Parsers Props.Codec Props.Ts Props.TsMixer Props.Remux Props.TsGaps Spec.Mixer Props.Mixer Spec.TsSize Proofs.TsSize.
Import ListNotations.
Local Open Scope list_scope.
Local Open Scope Z_scope.

Lemma proper_set os : Forall proper os -> Forall no_writer_set os.
Proof. intros H. eapply Forall_impl; [|exact H]. intros o Ho. destruct o; try exact I. exact Ho. Qed.
(** If no call panics, as many packets have been written as the tables and frames take: 188 bytes each, each in one call of Write. *)
Theorem C202_written : forall os fs vs w0 x w rs, Forall proper os -> never_fails w0 -> mixed [] nothing os fs vs -> mix_run (new_tsmix, w0) os = (x, w, rs) -> ~ In Crashed vs ->
  len (w_out w) = len (w_out w0) + 188 * packets_of os fs vs /\ Z.of_nat (w_calls w) = Z.of_nat (w_calls w0) + packets_of os fs vs.
Proof.
  intros os fs vs w0 x w rs HO HW H E HC. destruct (mixed_run _ _ _ _ _ H (Forall_nil _) HO w0 new_tsmix w0 [] eq_refl HW new_knows) as [A1 A2]. rewrite E in A2. cbn [snd] in A2.
  assert (HN : ~ In Panic rs). { rewrite A2. intros X. apply in_map_iff in X as (v & X1 & X2). destruct v; try discriminate. exact (HC X2). }
  pose proof (run_size os new_tsmix w0 new_mix_inv (proper_set _ HO) HW) as R. rewrite E in R. destruct (R HN) as (out & n & B1 & B2 & B3 & B4).
  rewrite A2, res_verdict, A1 in B4. fold (packets_of os fs vs) in B4. rewrite B1, B2, len_app. lia.
Qed.
Print Assumptions C202_written.
(** A frame takes at least one packet, and no more than its bytes with a header of at most 27 need. *)
Theorem C202_frame : forall f, 1 <= frame_packets f /\ len (sf_media f) + 14 <= 184 * frame_packets f < len (sf_media f) + 27 + 184.
Proof.
  intros f. unfold frame_packets, frame_head. pose proof (len_nonneg (sf_media f)) as HL. 
  destruct ((sf_type f =? 0) && negb (sf_pts f =? sf_dts f)), (sf_key f); match goal with |- context [?n / 184] => pose proof (Z.div_mod n 184 ltac:(lia)); pose proof (Z.mod_pos_bound n 184 ltac:(lia)) end; lia.
Qed.
Print Assumptions C202_frame.
(** The calls of C179: the tables and two small frames, five packets. *)
Example C202_example : exists fs vs, mixed [] nothing ex_calls fs vs /\ ~ In Crashed vs /\ packets_of ex_calls fs vs = 5 /\
  len (w_out (snd (fst (mix_run (new_tsmix, buffer0) ex_calls)))) = 940.
Proof.
  destruct C179_example as (HP & fs & vs & H & -> & _). exists fs. eexists. split; [exact H|]. split; [intros X; cbn [In] in X; repeat (destruct X as [X|X]; [discriminate X|]); exact X|].
  destruct (mixed_run _ _ _ _ _ H (Forall_nil _) HP buffer0 new_tsmix buffer0 [] eq_refl (fun _ => eq_refl) new_knows) as [A1 _]. rewrite <- A1. split; vm_compute; reflexivity.
Qed.
