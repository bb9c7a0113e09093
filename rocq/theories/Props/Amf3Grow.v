(** Property C220: how long the encoding of a decoded AMF3 value can be (Spec/Amf3Again.v). *)
From Coq Require Import String Permutation.
From Verif Require Import Base.Go Base.GoFacts Base.IO Base.Float64 Proofs.IOFacts Model.AmfTypes Model.Amf3 Model.Amf0 Spec.Amf Spec.AmfDoc Spec.Amf3Doc Spec.Amf3Ref Spec.AmfRaw Spec.AmfRaw3 Spec.Amf3Again
  Proofs.AmfFacts Proofs.Amf3Enc Proofs.Amf3Spec Proofs.Amf3Again Proofs.AmfHistory Proofs.Amf3Grow Props.Amf3 Props.Amf3Ref Props.AmfRaw3 Props.Amf3Again.
Import ListNotations.
Local Open Scope list_scope.
Local Open Scope Z_scope.

(** Encode, given the value v on the heap h in whatever order of the members of its maps, writes to a writer that does not fail a
    number of bytes of which P holds. *)
Definition writes_some (h : list omap) (v : value) (P : Z -> Prop) : Prop :=
  (exists p, unfolds h v p) /\
  forall p w, unfolds h v p -> never_fails w -> exists w' enc r, encode3 (same_go p) w = (w', r) /\ w_out w' = w_out w ++ enc /\ (r = Ok (len enc) \/ r = Err EOther) /\ P (len enc).

(** ** C220. What a new decoder returned for n bytes, with more input behind them, is encoded in at most (n + 10) n bytes. *)
Theorem C220_quadratic_bound : forall s e d' v rest, is_bytes s -> decode3 (fresh (cont s e)) = (d', Ok v) -> d_r d' = cont rest e -> rest <> [] ->
  let n := len s - len rest in 0 < n /\ writes_some (d_heap d') v (fun k => k <= (n + 10) * n).
Proof.
  intros s e d' v rest HB E HR HN n.
  assert (HK : knows new_world (fresh (cont s e))) by apply fresh_knows.
  destruct (proj1 (C142_decode_exactly new_world (fresh (cont s e)) s e HB eq_refl HK) d' v E) as (b & c & rest' & p0 & W' & V & EB & CR & HR' & U & _).
  assert (rest' = rest) as ->. { rewrite HR in HR'. apply (f_equal r_rest) in HR'. rewrite !cont_contr, !contr_rest in HR'. symmetry. exact HR'. }
  destruct CR as [->|CR]; [|contradiction]. cbn [repeat] in EB. rewrite app_nil_r in EB.
  assert (EN : n = len b) by (unfold n; rewrite EB, len_app; lia).
  assert (B : is_bytes b) by (rewrite EB in HB; apply is_bytes_app in HB; apply HB).
  assert (WO : world_ok new_world) by (split; [split; constructor|constructor]).
  destruct (proj1 value_fine _ _ _ _ _ V B WO) as [F0 _].
  assert (CL : closed new_world) by (split; constructor).
  destruct (proj1 value_grows _ _ _ _ _ V CL) as ((_ & _ & T) & L & G). change (tot new_world) with 0 in T. rewrite EN. split; [lia|].
  split; [exists p0; exact U|]. intros p w Up Hw. pose proof (fine_order _ _ F0 _ _ U Up) as F.
  destruct (C183_relation (same_go p) (fine_go p F)) as (x & HX & _). destruct (C183_encode (same_go p) x w (fine_go p F) HX Hw) as (m & EX).
  eexists. exists (fst x). eexists. split; [exact EX|]. split; [reflexivity|]. split; [destruct (snd x); [left|right]; reflexivity|].
  pose proof (written_up p x HX) as X. rewrite <- (up_order _ _ _ _ U Up) in X. nia.
Qed.
Print Assumptions C220_quadratic_bound.

(** A class with one member, of the name k, whose value is an object of that class again, and so on. *)
Fixpoint inner (n : nat) : bytes := match n with O => [1] | S n' => 10 :: 1 :: inner n' end.
Definition chained (k : bytes) (n : nat) : bytes := 10 :: 19 :: 1 :: (wire_u29 (2 * len k + 1) ++ k) ++ inner n.
Fixpoint chain_value (k : bytes) (n : nat) : pval := match n with O => PNil | S n' => PObj [(k, chain_value k n')] end.
Lemma inner_reads k n W : w_tables W = mkTables [k] [([], [k])] -> exists W', value3r Library W (inner n) 0 (chain_value k n) W'.
Proof.
  revert W. induction n as [|n IH]; intros W HW; [exists W; apply vr3_null|]. destruct (IH (begun Library PNil (with_tables (w_tables W) W)) HW) as (W' & V). eexists. cbn [inner chain_value].
  change (10 :: 1 :: inner n) with (10 :: [1] ++ inner n). rewrite <- (app_nil_r (inner n)).
  eapply vr3_object with (ty := []) (props := [k]) (vs := [chain_value k n]); [|reflexivity| |reflexivity].
  - apply (tr_ref _ _ 0%nat); [apply (u29_1 1); lia|rewrite HW; reflexivity].
  - change 0%nat with (0 + 0)%nat. eapply vsr3_cons; [exact V|apply vsr3_nil|left; reflexivity].
Qed.
Lemma chained_reads k n : k <> [] -> 2 * len k + 1 < 2 ^ 29 -> exists W', value3r Library new_world (chained k n) 0 (chain_value k (S n)) W'.
Proof.
  intros HN HK. set (T1 := mkTables [k] [([], [k])]). destruct (inner_reads k n (begun Library PNil (with_tables T1 new_world)) eq_refl) as (W' & V). eexists. unfold chained. cbn [chain_value].
  pose proof (len_nonneg k). rewrite <- (app_nil_r (inner n)).
  change (10 :: 19 :: 1 :: (wire_u29 (2 * len k + 1) ++ k) ++ inner n ++ []) with (10 :: ([19] ++ [1] ++ (wire_u29 (2 * len k + 1) ++ k)) ++ inner n ++ []).
  eapply vr3_object with (ty := []) (props := [k]) (vs := [chain_value k n]) (T1 := T1); [|reflexivity| |reflexivity].
  - apply (tr_new (loose Library) (w_tables new_world) 0 [19] [1] [] [] (wire_u29 (2 * len k + 1) ++ k) [k] [k]).
    + left. reflexivity.
    + apply (u29_1 19). lia.
    + apply vr_empty. apply (u29_1 1). lia.
    + rewrite <- (app_nil_r (wire_u29 (2 * len k + 1) ++ k)). eapply vrs_cons; [|apply vrs_nil]. apply (vr_lit [] k); [exact HN|]. apply u29_wire. lia.
  - change 0%nat with (0 + 0)%nat. eapply vsr3_cons; [exact V|apply vsr3_nil|left; reflexivity].
Qed.
Lemma chain_one h k n : forall v q, unfolds h v (chain_value k n) -> unfolds h v q -> q = chain_value k n.
Proof.
  induction n as [|n IH]; intros v q H Hq; cbn [chain_value] in *; inversion H; subst; [inversion Hq; reflexivity|].
  inversion Hq as [ | | | | | | | | | |? m2 gs gs' Hn2 HG HP2| |]; subst.
  match goal with A : nth_error h loc = Some m, B : Forall2 _ m fs, C : Permutation fs [_] |- _ => rename A into A1; rename B into B1; rename C into C1 end.
  rewrite A1 in Hn2. injection Hn2 as <-. apply Permutation_sym, Permutation_length_1_inv in C1. subst fs. inversion B1 as [|a ? m' ? [K1 U1] B2]; subst. inversion B2; subst. inversion HG as [|? b ? gs2 [K2 U2] HG2]; subst. inversion HG2; subst.
  apply Permutation_length_1_inv in HP2. subst gs'. destruct b as [k2 q2]. cbn [fst snd] in *. rewrite (IH _ _ U1 U2), <- K2, K1. reflexivity.
Qed.
Lemma chain_written k n : 2 * len k + 1 < 2 ^ 29 -> forall x, written3 (same_go (chain_value k n)) x -> snd x = true /\ Z.of_nat n * len k <= len (fst x).
Proof.
  intros HK. pose proof (len_nonneg k) as L0. induction n as [|n IH]; intros x HX; cbn [chain_value same_go map] in HX.
  { inversion HX; subst; repeat match goal with H : (if ?b then _ else _) = _ |- _ => destruct b; try discriminate H end. split; [reflexivity|apply (len_nonneg [1])]. }
  inversion HX as [ | | | |sg z R E|? ? E|sg wide z R E| | | | |fs fs' xs HP HS HF| ]; subst; try (destruct sg; discriminate E).
  apply Permutation_length_1_inv in HP. subst fs'. cbn [map fst snd] in HF. inversion HF as [|? x ? xs' HX1 HF']; subst. inversion HF'; subst. destruct (IH _ HX1) as [S L].
  assert (ET : text29 k = (wire_u29 (2 * len k + 1) ++ k, true)).
  { unfold text29, length29, number29. rewrite Z.mod_small by lia. replace (2 * len k + 1 <? 2 ^ 29) with true by lia. reflexivity. }
  change (number29 ((16 * len [(k, same_go (chain_value k n))]) mod 2 ^ 32 + 3)) with (done [19]). cbn [map fst app]. unfold in_order. cbn [fold_right]. rewrite ET. unfold and_then, done. cbn [fst snd]. rewrite S. cbn [fst snd]. split; [reflexivity|].
  rewrite !len_app. change (len [10]) with 1. change (len [19]) with 1. change (len [1]) with 1. change (len (@nil Z)) with 0. pose proof (len_nonneg (wire_u29 (2 * len k + 1))). lia.
Qed.
(** The square is reached: for each name k and each n there is an input of at most |k| + 2 n + 8 bytes that is decoded to a value
    for which Encode writes at least (n + 1) |k|. *)
Theorem C220_quadratic_reached : forall k n, is_bytes k -> 0 < len k < 2 ^ 28 -> exists s d' v, is_bytes s /\ len s <= len k + 2 * Z.of_nat n + 8 /\ decode3 (fresh (bytes_reader s)) = (d', Ok v) /\
  writes_some (d_heap d') v (fun m => (Z.of_nat n + 1) * len k <= m).
Proof.
  intros k n HB HL.
  assert (BI : is_bytes (inner n)) by (induction n as [|n IH]; cbn [inner]; [constructor; [unfold byte; lia|constructor]|constructor; [unfold byte; lia|constructor; [unfold byte; lia|exact IH]]]).
  assert (LI : len (inner n) = 2 * Z.of_nat n + 1) by (clear; induction n as [|n IH]; cbn [inner]; [reflexivity|rewrite !len_cons, IH; lia]).
  assert (BS : is_bytes (chained k n)).
  { unfold chained. do 3 (constructor; [unfold byte; lia|]). apply is_bytes_app. split; [|exact BI]. apply is_bytes_app. split; [|exact HB]. apply wire_u29_byte. lia. }
  assert (WL : len (wire_u29 (2 * len k + 1)) <= 4) by (apply wire_u29_len; lia).
  destruct (chained_reads k n) as (W' & V); [intros ->; change (len []) with 0 in HL; lia|lia|].
  destruct (proj2 (C142_decode_exactly new_world (fresh (bytes_reader (chained k n))) (chained k n) (r_end (bytes_reader [])) BS eq_refl (fresh_knows _)) _ 0%nat [] _ _ V) as (d' & v & E & _ & U & _); [cbn [repeat]; reflexivity|left; reflexivity|].
  exists (chained k n), d', v. split; [exact BS|]. split; [unfold chained; rewrite !len_cons, !len_app, LI; lia|]. split; [exact E|]. split; [eexists; exact U|]. intros p w Up Hw. pose proof (chain_one _ _ _ _ _ U Up) as ->.
  assert (WO : world_ok new_world) by (split; [split; constructor|constructor]). destruct (proj1 value_fine _ _ _ _ _ V BS WO) as [F _].
  destruct (C183_relation _ (fine_go _ F)) as (x & HX & _). destruct (C183_encode _ x w (fine_go _ F) HX Hw) as (m & EX). destruct (chain_written k (S n) ltac:(lia) x HX) as [S L].
  eexists. exists (fst x). eexists. split; [exact EX|]. split; [reflexivity|]. split; [rewrite S; left; reflexivity|]. lia.
Qed.
Print Assumptions C220_quadratic_reached.

(** The bound does not hold for the last value of the input: for each length m that AMF3 can say there is an input of at most six
    bytes that is decoded to m zeros, which Encode writes out. *)
Theorem C220_cut_refuted : forall m : nat, 0 < Z.of_nat m < 2 ^ 28 -> exists s d' v, is_bytes s /\ len s <= 6 /\ decode3 (fresh (bytes_reader s)) = (d', Ok v) /\ d_r d' = bytes_reader [] /\
  writes_some (d_heap d') v (fun k => Z.of_nat m <= k).
Proof.
  intros m Hm. set (z := repeat 0 m). assert (LZ : len z = Z.of_nat m) by (unfold z, len; rewrite repeat_length; reflexivity).
  set (s := 12 :: wire_u29 (2 * len z + 1) ++ [0]).
  assert (BW : is_bytes (wire_u29 (2 * len z + 1))) by (apply wire_u29_byte; lia).
  assert (BS : is_bytes s) by (unfold s; constructor; [unfold byte; lia|]; apply is_bytes_app; split; [exact BW|]; constructor; [unfold byte; lia|constructor]).
  assert (V : value3r Library new_world (12 :: wire_u29 (2 * len z + 1) ++ z) (m - 1) (PBytes z) (entered Library z (PBytes z) new_world)).
  { apply vr3_bytes; [apply u29_wire; lia|]. right. unfold z. rewrite repeat_length. lia. }
  destruct (proj2 (C142_decode_exactly new_world (fresh (bytes_reader s)) s (r_end (bytes_reader [])) BS eq_refl (fresh_knows _)) _ (m - 1)%nat [] _ _ V) as (d' & v & E & R & U & _).
  { unfold s, z. rewrite app_nil_r. cbn [app]. f_equal. rewrite <- app_assoc. f_equal. destruct m as [|m]; [lia|]. cbn [repeat Nat.sub app]. rewrite Nat.sub_0_r. reflexivity. }
  { right. reflexivity. }
  exists s, d', v. split; [exact BS|]. split; [unfold s; rewrite len_cons, len_app; change (len [0]) with 1; pose proof (wire_u29_len (2 * len z + 1) ltac:(lia)); lia|]. split; [exact E|]. split; [exact R|]. split; [eexists; exact U|].
  intros p w Up Hw. inversion U; subst v. inversion Up; subst p. cbn [same_go]. match goal with H : _ = z |- _ => rewrite H end.
  destruct (C183_encode (TBytes z) _ w I (X_bytes z) Hw) as (c & EX). eexists. eexists. eexists. split; [exact EX|]. split; [reflexivity|].
  assert (ET : text29 z = (wire_u29 (2 * len z + 1) ++ z, true)).
  { unfold text29, length29, number29. rewrite Z.mod_small by lia. replace (2 * len z + 1 <? 2 ^ 29) with true by lia. reflexivity. }
  rewrite ET. unfold and_then, done. cbn [fst snd]. split; [left; reflexivity|]. rewrite !len_app. change (len [12]) with 1. pose proof (len_nonneg (wire_u29 (2 * len z + 1))). lia.
Qed.
Print Assumptions C220_cut_refuted.

(** An object whose one member is a byte array, then one more byte. *)
Example C220_example : exists d' v rest, decode3 (fresh (bytes_reader [10; 19; 1; 3; 97; 12; 5; 7; 8; 1])) = (d', Ok v) /\ d_r d' = bytes_reader rest /\ rest = [1] /\ unfolds (d_heap d') v (PObj [(str "a", PBytes [7; 8])]).
Proof.
  eexists. eexists. exists [1]. split; [vm_compute; reflexivity|]. split; [reflexivity|]. split; [reflexivity|].
  eapply (U_obj _ _ _ [(str "a", PBytes [7; 8])]); [reflexivity| |apply Permutation_refl]. apply Forall2_cons; [split; [reflexivity|apply U_bytes]|apply Forall2_nil].
Qed.
