(** Property C215: how many calls of Decode are active at the same time. *)
From Verif Require Import Base.Go Base.GoFacts Base.IO Base.Float64 Proofs.IOFacts Model.AmfTypes Model.Amf3 Model.Amf0 Model.AmfAlloc Model.AmfCalls
  Spec.Amf Spec.AmfAlloc Proofs.AmfFacts Proofs.Amf0RT Proofs.Amf0More Proofs.Amf3RT Proofs.AmfContr Proofs.AmfAlloc Proofs.AmfAllocLow Proofs.AmfCalls Props.AmfAlloc.
Local Open Scope Z_scope.

(** The decoders that count their calls are the decoders. *)
Theorem C215_same : forall d, snd (c_decode0 d) = decode0 d /\ snd (c_decode3 d) = decode3 d.
Proof. intros d. split; [apply cr_dec0|apply cr_dec3]. Qed.
Print Assumptions C215_same.
(** Any reader, any decoder history, any result: two bytes are read for every call inside another, except that the AMF0 Decode calls the
    AMF3 one after one byte. *)
Theorem C215_bound : forall d n d' r, is_bytes (unread d) -> plain_tables d ->
  (c_decode3 d = (n, (d', r)) -> 1 <= n /\ 2 * (n - 1) <= len (unread d) - len (unread d')) /\
  (c_decode0 d = (n, (d', r)) -> 1 <= n /\ 2 * (n - 2) <= len (unread d) - len (unread d') - 1).
Proof.
  intros d n d' r HB HP. pose proof (plain_fair d HB HP) as G.
  split; intros E.
  - pose proof (cq_dec3 (fuel_for d) d G) as H. unfold c_decode3 in E. rewrite E in H. destruct H as (_ & N & p & Hp & L & _). unfold unread. rewrite Hp, len_app.
    split; [|lia]. unfold fuel_for in E. cbn [c_dec3] in E. apply (f_equal fst) in E. cbn [fst] in E. unfold call in E. destruct (cbind _ _ d) as [k x] eqn:K. cbn [fst] in E.
    enough (0 <= k) by lia. clear E. unfold cbind, leaf in K. destruct (read_byte d) as [d1 [m|e| |]]; try (injection K as <- _; lia).
    match type of K with (let '(_, _) := ?t in _) = _ => destruct t as [k' x'] end. injection K as <- _. lia.
  - pose proof (cq_dec0 (fuel_for d) d G) as H. unfold c_decode0 in E. rewrite E in H. destruct H as (_ & N & p & Hp & L & _). unfold unread. rewrite Hp, len_app.
    split; [|lia]. unfold fuel_for in E. cbn [c_dec0] in E. apply (f_equal fst) in E. cbn [fst] in E. unfold call in E. destruct (cbind _ _ d) as [k x] eqn:K. cbn [fst] in E.
    enough (0 <= k) by lia. clear E. unfold cbind, leaf in K. destruct (read_byte d) as [d1 [m|e| |]]; try (injection K as <- _; lia).
    match type of K with (let '(_, _) := ?t in _) = _ => destruct t as [k' x'] end. injection K as <- _. lia.
Qed.
Print Assumptions C215_bound.

(** These bounds are reached: objects inside each other, of a class with one member that the decoder has met before, and null innermost. *)
Fixpoint deep (k : nat) : bytes := match k with O => [1] | S k => 10 :: 1 :: deep k end.
(** The first class a decoder has met is an ordinary one with one member. *)
Definition knows_pair (d : dstate) : Prop := exists t ts key, d_trait3 d = t :: ts /\ t_props t = [key] /\ t_ext t = false /\ t_dyn t = false.
Lemma cbind_leaf {A B} (m : Dm A) (k : A -> Cm B) d d' a n x : m d = (d', Ok a) -> k a d' = (n, x) -> 0 <= n -> cbind (leaf m) k d = (n, x).
Proof. intros H1 H2 HN. unfold cbind, leaf. rewrite H1, H2. rewrite Z.max_r by exact HN. reflexivity. Qed.
Lemma deep_calls k : forall f d rest e, (k < f)%nat -> knows_pair d -> d_r d = contr (deep k ++ rest) e ->
  exists d' v, c_dec3 f d = (Z.of_nat k + 1, (d', Ok v)) /\ d_r d' = contr rest e /\ d_trait3 d' = d_trait3 d.
Proof.
  induction k as [|k IH]; intros f d rest e Hf HK Hr; (destruct f as [|f]; [lia|]); cbn [c_dec3].
  - exists (set_r (contr rest e) d), VNil. split; [|split; reflexivity]. unfold call. erewrite cbind_leaf; [reflexivity|apply (read_byte_contr d 1 rest e Hr)|reflexivity|lia].
  - cbn [deep app] in Hr. set (d1 := set_r (contr (1 :: deep k ++ rest) e) d).
    assert (E1 : read_byte d = (d1, Ok 10)) by exact (read_byte_contr d 10 _ e Hr).
    set (d2 := set_r (contr (deep k ++ rest) e) d1).
    assert (E2 : decode_u29 d1 = (d2, Ok (false, 0))) by exact (decode_u29_contr d1 0 (deep k ++ rest) e ltac:(lia) eq_refl).
    destruct HK as (t & ts & key & T1 & T2 & T3 & T4).
    assert (E3 : decode_trait f 0 d2 = (d2, Ok t)).
    { assert (T : d_trait3 d2 = t :: ts) by exact T1. unfold decode_trait. change (Z.land 0 1 =? 0) with true. cbv iota beta zeta. change (Z.shiftr 0 1) with 0. rewrite T.
      pose proof (len_nonneg ts). replace (len (t :: ts) <=? 0) with false by (rewrite len_cons; lia). reflexivity. }
    set (d3 := fst (obj3_push VNil d2)). set (d4 := fst (alloc d3)).
    destruct (IH f d4 rest e ltac:(lia)) as (d5 & v & E5 & R5 & K5); [exists t, ts, key; auto|reflexivity|].
    exists (fst (obj_set (length (d_heap d3)) key v d5)), (VObj (length (d_heap d3))). split; [|split; [exact R5|exact K5]].
    set (loc := length (d_heap d3)) in *. set (d6 := fst (obj_set loc key v d5)) in *.
    assert (P : c_props_loop (c_dec3 f) loc [key] d4 = (Z.of_nat k + 1, (d6, Ok tt))).
    { cbn [c_props_loop]. unfold cbind at 1. rewrite E5. cbv iota beta. unfold cbind, leaf, dret. unfold obj_set at 1. f_equal. lia. }
    assert (B : c_decode_object3 (c_dec3 f) (dec3 f) f d1 = (Z.of_nat k + 1, (d6, Ok (VObj loc)))).
    { unfold c_decode_object3. eapply cbind_leaf; [exact E2| |lia]. cbv iota beta. eapply cbind_leaf; [exact E3| |lia]. eapply cbind_leaf; [reflexivity| |lia]. rewrite T3.
      eapply cbind_leaf; [reflexivity| |lia]. rewrite T2, T4. unfold cbind at 1. change (c_props_loop (c_dec3 f) _ [key] _) with (c_props_loop (c_dec3 f) loc [key] d4). rewrite P.
      cbv iota beta. unfold cbind, leaf, dret. f_equal. lia. }
    unfold call. erewrite cbind_leaf; [|exact E1|exact B|lia]. f_equal. lia.
Qed.
Theorem C215_deep : forall k d e, knows_pair d -> d_r d = cont (deep k) e ->
  len (unread d) = 2 * Z.of_nat k + 1 /\ exists d' v, c_decode3 d = (Z.of_nat k + 1, (d', Ok v)).
Proof.
  intros k d e HK Hr. rewrite cont_contr in Hr. assert (LN : len (deep k) = 2 * Z.of_nat k + 1).
  { clear. induction k as [|k IH]; [reflexivity|]. cbn [deep]. rewrite !len_cons, IH. lia. }
  split; [unfold unread; rewrite Hr, contr_rest; exact LN|]. unfold c_decode3. rewrite (fuel_for_contr _ _ _ Hr).
  destruct (deep_calls k (S (length (deep k))) d [] e) as (d' & v & E & _); [unfold len in LN; lia|exact HK|rewrite app_nil_r; exact Hr|]. eauto.
Qed.
Print Assumptions C215_deep.
(** And inside AMF0, with one byte more. *)
Theorem C215_deep0 : forall k d e, knows_pair d -> d_r d = cont (17 :: deep k) e ->
  len (unread d) = 2 * Z.of_nat k + 2 /\ exists d' v, c_decode0 d = (Z.of_nat k + 2, (d', Ok v)).
Proof.
  intros k d e HK Hr. rewrite cont_contr in Hr. assert (LN : len (deep k) = 2 * Z.of_nat k + 1).
  { clear. induction k as [|k IH]; [reflexivity|]. cbn [deep]. rewrite !len_cons, IH. lia. }
  split; [unfold unread; rewrite Hr, contr_rest, len_cons, LN; lia|]. unfold c_decode0. rewrite (fuel_for_contr _ _ _ Hr). cbn [length c_dec0].
  destruct (deep_calls k (S (length (deep k))) (set_r (contr (deep k) e) d) [] e) as (d' & v & E & _); [unfold len in LN; lia|exact HK|rewrite app_nil_r; reflexivity|].
  exists d', v. unfold call. erewrite cbind_leaf; [|exact (read_byte_contr d 17 (deep k) e Hr)|exact E|lia]. f_equal. lia.
Qed.
Print Assumptions C215_deep0.
(** One object of such a class, with null in it, and the decoder knows the class; three objects inside each other then are four calls. *)
Definition met : dstate := fst (decode3 (fresh (bytes_reader [10; 19; 1; 3; 97; 1]))).
Example C215_example : knows_pair met /\ plain_tables met /\ deep 3 = [10; 1; 10; 1; 10; 1; 1] /\ fst (c_decode3 (set_r (bytes_reader (deep 3)) met)) = 4 /\
  fst (c_decode0 (fresh (bytes_reader [10; 0; 0; 0; 1; 10; 0; 0; 0; 1; 10; 0; 0; 0; 1]))) = 4.
Proof.
  split; [exists (mkTrait [] false false [[97]]), [], [97]; vm_compute; auto|]. split; [split; [intros t [<-|[]]; reflexivity|intros x xs loc [K|[]]; discriminate]|].
  split; [reflexivity|]. split; vm_compute; reflexivity.
Qed.
