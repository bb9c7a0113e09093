(** Property C219: how long the encoding of a decoded AMF0 value can be (Spec/AmfGrow.v, Spec/AmfAgain.v). *)
From Coq Require Import String Permutation.
From Verif Require Import Base.Go Base.GoFacts Base.IO Base.Float64 Proofs.IOFacts Model.AmfTypes Model.Amf3 Model.Amf0 Spec.Amf Spec.AmfDoc Spec.AmfAgain Spec.AmfVal Spec.AmfGrow
  Proofs.AmfFacts Proofs.AmfAgain Proofs.AmfGrow Props.Amf0 Props.AmfDoc Props.AmfRefs.
Import ListNotations.
Local Open Scope list_scope.
Local Open Scope Z_scope.

(** Encode writes n bytes for the value v on the heap h, in whatever order it meets the members of the maps, to any writer that
    does not fail. *)
Definition writes_n (h : list omap) (v : value) (n : Z) : Prop :=
  (exists p, unfolds h v p) /\
  forall p w, unfolds h v p -> never_fails w -> exists w' enc, encode0 (go_value p) w = (w', Ok n) /\ w_out w' = w_out w ++ enc /\ len enc = n.
Lemma writes_wsize h v p : unfolds h v p -> ok0 (go_value p) -> writes_n h v (wsize p).
Proof.
  intros U O. split; [exists p; exact U|]. intros q w Uq Hw. rewrite (wsize_order h p v q U Uq). destruct (C95_amf0_wire_format (go_value q) w (other_order h p O v q U Uq) Hw) as [k E].
  exists (mkW (w_out w ++ wire0 (go_value q)) k (w_script w)), (wire0 (go_value q)). split; [exact E|]. split; reflexivity.
Qed.

(** ** C219. The claim that encoding again what was decoded writes no more than was read, or no more than some multiple of it, is
    false: an input of 13 n + 4 bytes, for each n up to 65535, is decoded to a value for which Encode writes 14 * 2^n - 10. *)
Theorem C219_no_longer_refuted : forall n, (Z.of_nat n < 65536) ->
  exists s d' v, is_bytes s /\ len s = 13 * Z.of_nat n + 4 /\ decode0 (fresh (bytes_reader s)) = (d', Ok v) /\
    writes_n (d_heap d') v (14 * 2 ^ Z.of_nat n - 10).
Proof.
  intros n Hn. destruct (doubled_ok n 0 ltac:(lia) ltac:(lia)) as (H1 & H2 & H3). destruct (doubled_deref n []) as (env' & E & _). change (len []) with 0 in E.
  destruct (C137_reference_values_read (doubled n 0) (fresh (bytes_reader (layout0 (doubled n 0)))) [] (doubled_value n) env' [] (r_end (bytes_reader [])) H1 H2) as (d' & v & D & _ & U & _).
  - constructor.
  - exact E.
  - rewrite app_nil_r. reflexivity.
  - right. right. exact H3.
  - exists (layout0 (doubled n 0)), d', v. split; [apply doubled_bytes; lia|]. split; [apply doubled_length|]. split; [exact D|]. rewrite <- doubled_wsize. apply (writes_wsize _ _ _ U (doubled_good n)).
Qed.
Print Assumptions C219_no_longer_refuted.
(** So no multiple that 16 bits of references leave room for is enough: for each c up to 2^65000 there is an input that is decoded to
    a value whose encoding is more than c times as long. *)
Corollary C219_no_multiple_refuted : forall k : nat, Z.of_nat k <= 65000 ->
  exists s d' v n, is_bytes s /\ decode0 (fresh (bytes_reader s)) = (d', Ok v) /\ writes_n (d_heap d') v n /\ n > 2 ^ Z.of_nat k * len s.
Proof.
  intros k Hk. assert (Hn : Z.of_nat (k + 20) < 65536) by lia. destruct (C219_no_longer_refuted _ Hn) as (s & d' & v & H1 & H2 & H3 & H4). exists s, d', v. eexists. split; [exact H1|]. split; [exact H3|]. split; [exact H4|].
  rewrite H2, Nat2Z.inj_add, Z.pow_add_r by lia. change (2 ^ Z.of_nat 20) with 1048576. assert (2 ^ Z.of_nat k > 0) by (apply Z.lt_gt, Z.pow_pos_nonneg; lia). nia.
Qed.
Print Assumptions C219_no_multiple_refuted.
(** True without references and AMF3 values: whatever else the input holds, whatever the decoder has read before and whatever follows,
    Encode writes no more bytes than the value took. *)
Theorem C219_plain_no_longer_partial : forall t d rest e, doc_ok true t -> plain t -> is_bytes (layout0 t) -> d_r d = cont (layout0 t ++ rest) e ->
  rest <> [] \/ e_zero e = false \/ doc_ends_empty t = false ->
  exists d' v n, decode0 d = (d', Ok v) /\ d_r d' = cont rest e /\ writes_n (d_heap d') v n /\ n <= len (layout0 t).
Proof.
  intros t d rest e HO HP HB Hr Hs. destruct (C123_documents_read t d rest e HO HP Hr Hs) as (d' & v & E & R & U & _). destruct (plain_small t HO HP HB) as [O L].
  exists d', v, (wsize (read0 t)). split; [exact E|]. split; [exact R|]. split; [apply writes_wsize; assumption|exact L].
Qed.
Print Assumptions C219_plain_no_longer_partial.
(** A date, a long string and a repeated name: 35 bytes are read, 23 written. *)
Example C219_plain_example : let t := A_ecma 3 [(str "d", A_undefined); (str "d", A_date 4607182418800017408 60); (str "s", A_long (str "x"))] in
  doc_ok true t /\ plain t /\ is_bytes (layout0 t) /\ doc_ends_empty t = false /\ len (layout0 t) = 35 /\ wsize (read0 t) = 23.
Proof.
  split; [vm_compute; repeat split; congruence|]. split; [vm_compute; tauto|]. split; [vm_compute; repeat (constructor; [split; vm_compute; congruence|]); constructor|]. repeat split.
Qed.
(** 121 bytes are read, 7158 are written. *)
Example C219_example : exists s d' v, len s = 121 /\ decode0 (fresh (bytes_reader s)) = (d', Ok v) /\ writes_n (d_heap d') v 7158.
Proof. destruct (C219_no_longer_refuted 9 ltac:(vm_compute; reflexivity)) as (s & d' & v & _ & H). exists s, d', v. exact H. Qed.
