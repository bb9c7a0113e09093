(** Decoding never changes maps that existed before the call; references. *)
From Coq Require Import Permutation.
From Verif Require Import Base.Go Base.GoFacts Base.IO Base.Float64 Proofs.IOFacts
  Model.AmfTypes Model.Amf3 Model.Amf0 Spec.Amf Proofs.AmfFacts Proofs.Amf0Enc Proofs.Amf0RT Proofs.AmfTerm Proofs.AmfTame
  Proofs.Amf0More.

Definition keeps {A} (n : nat) (P : A -> Prop) (m : Dm A) : Prop := forall d, (n <= length (d_heap d))%nat ->
  (n <= length (d_heap (fst (m d))))%nat /\ firstn n (d_heap (fst (m d))) = firstn n (d_heap d) /\
  forall a, snd (m d) = Ok a -> P a.

Notation any := (fun _ => True).

Lemma keeps_bind {A B} n (P : A -> Prop) (Q : B -> Prop) (m : Dm A) (k : A -> Dm B) :
  keeps n P m -> (forall a, P a -> keeps n Q (k a)) -> keeps n Q (dbind m k).
Proof.
  intros Hm Hk d Hn. unfold dbind. destruct (Hm d Hn) as (H1 & H2 & H3).
  destruct (m d) as [d1 [a|e| |]]; cbn [fst snd] in *.
  - destruct (Hk a (H3 a eq_refl) d1 H1) as (K1 & K2 & K3). split; [exact K1|]. split; [congruence|exact K3].
  - split; [exact H1|]. split; [exact H2|discriminate].
  - split; [exact H1|]. split; [exact H2|discriminate].
  - split; [exact H1|]. split; [exact H2|discriminate].
Qed.
Lemma keeps_same {A} n (m : Dm A) : (forall d, d_heap (fst (m d)) = d_heap d) -> keeps n any m.
Proof. intros H d Hn. rewrite H. auto. Qed.
Lemma keeps_ret {A} n (P : A -> Prop) a : P a -> keeps n P (dret a).
Proof. intros H d Hn. cbn. repeat split; auto. intros x E; inversion E; subst; exact H. Qed.
Lemma keeps_fail {A} n (P : A -> Prop) e : keeps n P (dfail e).
Proof. intros d Hn. cbn. repeat split; auto. discriminate. Qed.
Lemma keeps_fuel {A} n (P : A -> Prop) : keeps n P (fun d => (d, OutOfFuel)).
Proof. intros d Hn. cbn. repeat split; auto. discriminate. Qed.
Lemma keeps_alloc n : keeps n (fun loc => (n <= loc)%nat) alloc.
Proof.
  intros d Hn. cbn. rewrite app_length. split; [lia|]. split.
  - rewrite firstn_app. replace (n - length (d_heap d))%nat with 0%nat by lia. cbn. apply app_nil_r.
  - intros a E; inversion E; subst. exact Hn.
Qed.
Lemma firstn_upd_nth {A} (f : A -> A) : forall n i l, (n <= i)%nat -> firstn n (upd_nth i f l) = firstn n l.
Proof.
  induction n; intros i l H; [reflexivity|]. destruct i; [lia|]. destruct l; [reflexivity|]. cbn. rewrite IHn by lia. reflexivity.
Qed.
Lemma keeps_obj_set n loc k v : (n <= loc)%nat -> keeps n any (obj_set loc k v).
Proof. intros H d Hn. cbn. rewrite upd_nth_length. split; [exact Hn|]. split; [apply firstn_upd_nth, H|auto]. Qed.

Lemma keeps_read_bytes n k : keeps n any (read_bytes k).
Proof. apply keeps_same. intros d. unfold read_bytes. destruct (read k (d_r d)) as [r [s|e| |]]; reflexivity. Qed.
Lemma keeps_read_into n k : keeps n any (read_into k).
Proof. apply keeps_same. intros d. unfold read_into. destruct (read k (d_r d)) as [r [s|e| |]]; reflexivity. Qed.
Lemma keeps_read_be n k : keeps n any (read_be k).
Proof. apply keeps_same. intros d. unfold read_be. destruct (read_full k (d_r d)) as [r [s|e| |]]; reflexivity. Qed.
Lemma keeps_if2 {A} n (c : dstate -> bool) (f g : dstate -> res A) : keeps n any (fun d => if c d then (d, f d) else (d, g d)).
Proof. apply keeps_same. intros d. destruct (c d); reflexivity. Qed.

Ltac kp := repeat first
  [ apply keeps_ret; exact I | apply keeps_fail | apply keeps_fuel
  | apply keeps_read_bytes | apply keeps_read_into | apply keeps_read_be | apply keeps_if2
  | apply keeps_obj_set; assumption
  | assumption
  | eapply (@keeps_bind _ _ _ any); [|intros ? _]
  | apply keeps_same; intros; reflexivity
  | match goal with
    | |- keeps _ _ (if ?c then _ else _) => destruct c
    | |- keeps _ _ (match ?x with _ => _ end) => destruct x
    end
  | progress cbv zeta ].

Lemma keeps_read_byte n : keeps n any read_byte. Proof. unfold read_byte. kp. Qed.
Lemma keeps_read_u29 n : keeps n any read_u29. Proof. unfold read_u29, read_byte. kp. Qed.
Lemma keeps_u29 n : keeps n any decode_u29.
Proof. unfold decode_u29. eapply (@keeps_bind _ _ _ any); [apply keeps_read_u29|]. intros; kp. Qed.
Lemma keeps_string3 n : keeps n any decode_string3.
Proof. unfold decode_string3. eapply (@keeps_bind _ _ _ any); [apply keeps_u29|]. intros [b v] _. kp. Qed.
Lemma keeps_date3 n : keeps n any decode_date3.
Proof.
  unfold decode_date3. eapply (@keeps_bind _ _ _ any); [apply keeps_u29|]. intros [b v] _. destruct b.
  - unfold obj3_ref. kp.
  - eapply (@keeps_bind _ _ _ any); [|intros; unfold obj3_push; kp]. apply keeps_same. intros d.
    unfold read_be. destruct (read_full 8 (d_r d)) as [r [s|e| |]]; reflexivity.
Qed.
Lemma keeps_xmldoc3 n : keeps n any decode_xmldoc3.
Proof. unfold decode_xmldoc3. eapply (@keeps_bind _ _ _ any); [apply keeps_u29|]. intros [b v] _. unfold obj3_ref, obj3_push; kp. Qed.
Lemma keeps_bytearray3 n : keeps n any decode_bytearray3.
Proof. unfold decode_bytearray3. eapply (@keeps_bind _ _ _ any); [apply keeps_u29|]. intros [b v] _. unfold obj3_ref, obj3_push; kp. Qed.
Lemma keeps_read_flags n f : keeps n any (read_flags f).
Proof. induction f; cbn [read_flags]; [kp|]. eapply (@keeps_bind _ _ _ any); [apply keeps_read_byte|]. intros; kp. Qed.
Lemma keeps_loop_n {A} n (b : Dm A) f : keeps n any b -> forall k, keeps n any (loop_n b f k).
Proof. intros Hb. induction f; intros k; cbn [loop_n]; kp. apply IHf. Qed.

Section WithDec.
  Variable dec : Dm value.
  Variable n : nat.
  Hypothesis Hdec : keeps n any dec.
  Lemma keeps_ext_named loc fl : (n <= loc)%nat -> forall names p, keeps n any (ext_named dec loc fl p names).
  Proof. intros H. induction names; intros; cbn [ext_named]; kp; apply IHnames. Qed.
  Lemma keeps_ext_extra loc i fl : (n <= loc)%nat -> forall js, keeps n any (ext_extra dec loc i fl js).
  Proof. intros H. induction js; intros; cbn [ext_extra]; kp. Qed.
  Lemma keeps_ext_flags loc : (n <= loc)%nat -> forall fs i fields, keeps n any (ext_flags dec loc i fields fs).
  Proof.
    intros H. induction fs; intros; cbn [ext_flags]; [kp|].
    eapply (@keeps_bind _ _ _ any); [apply keeps_ext_named, H|]. intros ? _.
    eapply (@keeps_bind _ _ _ any); [|intros ? _; apply IHfs]. destruct (_ =? 0); [kp|apply keeps_ext_extra, H].
  Qed.
  Lemma keeps_external f loc fields : (n <= loc)%nat -> keeps n any (decode_external dec f loc fields).
  Proof. intros H. unfold decode_external. eapply (@keeps_bind _ _ _ any); [apply keeps_read_flags|]. intros; apply keeps_ext_flags, H. Qed.
  Lemma keeps_abstract f : keeps n (fun loc => (n <= loc)%nat) (decode_abstract dec f).
  Proof.
    unfold decode_abstract. eapply keeps_bind; [apply keeps_alloc|]. cbv beta. intros loc Hloc.
    eapply (@keeps_bind _ _ _ any); [apply keeps_external, Hloc|]. intros; apply keeps_ret, Hloc.
  Qed.
  Lemma keeps_async f : keeps n (fun loc => (n <= loc)%nat) (decode_async dec f).
  Proof.
    unfold decode_async. eapply keeps_bind; [apply keeps_abstract|]. cbv beta. intros loc Hloc.
    eapply (@keeps_bind _ _ _ any); [apply keeps_external, Hloc|]. intros; apply keeps_ret, Hloc.
  Qed.
  Lemma keeps_ack f : keeps n (fun loc => (n <= loc)%nat) (decode_ack dec f).
  Proof.
    unfold decode_ack. eapply keeps_bind; [apply keeps_async|]. cbv beta. intros loc Hloc.
    eapply (@keeps_bind _ _ _ any); [apply keeps_external, Hloc|]. intros; apply keeps_ret, Hloc.
  Qed.
  Lemma keeps_assoc_loop loc : (n <= loc)%nat -> forall f key, keeps n any (assoc_loop dec f loc key).
  Proof.
    intros H. induction f; intros [|c key]; cbn [assoc_loop]; [kp|kp|kp|].
    eapply (@keeps_bind _ _ _ any); [exact Hdec|]. intros ? _. eapply (@keeps_bind _ _ _ any); [kp|]. intros ? _.
    eapply (@keeps_bind _ _ _ any); [apply keeps_string3|]. intros ? _. apply IHf.
  Qed.
  Lemma keeps_array3 f : keeps n any (decode_array3 dec f).
  Proof.
    unfold decode_array3. eapply (@keeps_bind _ _ _ any); [apply keeps_u29|]. intros [b v] _. destruct b; [unfold obj3_ref; kp|].
    eapply (@keeps_bind _ _ _ any); [apply keeps_string3|]. intros ? _. eapply (@keeps_bind _ _ _ any); [unfold obj3_push; kp|]. intros ? _.
    eapply keeps_bind; [apply keeps_alloc|]. cbv beta. intros loc Hloc.
    eapply (@keeps_bind _ _ _ any); [apply keeps_assoc_loop, Hloc|]. intros ? _.
    eapply (@keeps_bind _ _ _ any); [apply keeps_loop_n, Hdec|]. intros; kp.
  Qed.
  Lemma keeps_props_loop loc : (n <= loc)%nat -> forall ks, keeps n any (props_loop dec loc ks).
  Proof. intros H. induction ks; cbn [props_loop]; kp. Qed.
  Lemma keeps_dyn_loop loc : (n <= loc)%nat -> forall f, keeps n any (dyn_loop dec f loc).
  Proof. intros H. induction f; cbn [dyn_loop]; [kp|]. eapply (@keeps_bind _ _ _ any); [apply keeps_string3|]. intros; kp. Qed.
  Lemma keeps_trait f v : keeps n any (decode_trait f v).
  Proof.
    unfold decode_trait. destruct (_ =? 0); [kp|]. cbv zeta. eapply (@keeps_bind _ _ _ any); [apply keeps_string3|]. intros ? _.
    eapply (@keeps_bind _ _ _ any); [apply keeps_loop_n, keeps_string3|]. intros; kp.
  Qed.
  Lemma keeps_object3 f : keeps n any (decode_object3 dec f).
  Proof.
    unfold decode_object3. eapply (@keeps_bind _ _ _ any); [apply keeps_u29|]. intros [b v] _. destruct b; [unfold obj3_ref; kp|].
    eapply (@keeps_bind _ _ _ any); [apply keeps_trait|]. intros t _. eapply (@keeps_bind _ _ _ any); [unfold obj3_push; kp|]. intros ? _.
    destruct (t_ext t).
    - unfold decode_externalizable. repeat (destruct (bytes_eqb _ _)); [| |unfold obj3_push; kp|kp];
      (eapply keeps_bind; [first [apply keeps_async|apply keeps_ack]|intros; kp]).
    - eapply keeps_bind; [apply keeps_alloc|]. cbv beta. intros loc Hloc.
      eapply (@keeps_bind _ _ _ any); [apply keeps_props_loop, Hloc|]. intros ? _.
      eapply (@keeps_bind _ _ _ any); [destruct (t_dyn t); [apply keeps_dyn_loop, Hloc|kp]|]. intros; kp.
  Qed.
  Lemma keeps_obj_loop loc : (n <= loc)%nat -> forall f, keeps n any (obj_loop dec f loc).
  Proof.
    intros H. induction f; cbn [obj_loop]; [kp|]. eapply (@keeps_bind _ _ _ any); [unfold decode_string0; kp|]. intros key _.
    destruct key; [unfold next_byte_must_be, read_byte; kp|]. kp.
  Qed.
  Lemma keeps_object0 f : keeps n any (decode_object0 dec f).
  Proof.
    unfold decode_object0. eapply keeps_bind; [apply keeps_alloc|]. cbv beta. intros loc Hloc.
    eapply (@keeps_bind _ _ _ any); [unfold ref0_push; kp|]. intros ? _.
    eapply (@keeps_bind _ _ _ any); [apply keeps_obj_loop, Hloc|]. intros; kp.
  Qed.
End WithDec.

Theorem keeps_dec3 n : forall f, keeps n any (dec3 f).
Proof.
  induction f as [|f IH]; cbn [dec3]; [kp|]. eapply (@keeps_bind _ _ _ any); [apply keeps_read_byte|]. intros m _.
  repeat match goal with |- keeps _ _ (if ?c then _ else _) => destruct c end;
  first [ apply keeps_xmldoc3 | apply keeps_date3 | apply keeps_bytearray3
        | apply keeps_array3, IH | apply keeps_object3, IH
        | eapply (@keeps_bind _ _ _ any); [apply keeps_read_u29|intros; kp]
        | eapply (@keeps_bind _ _ _ any); [apply keeps_string3|intros; kp] | solve [kp] ].
Qed.

Theorem keeps_dec0 n : forall f, keeps n any (dec0 f).
Proof.
  induction f as [|f IH]; cbn [dec0]; [kp|]. eapply (@keeps_bind _ _ _ any); [apply keeps_read_byte|]. intros m _.
  repeat match goal with |- keeps _ _ (if ?c then _ else _) => destruct c end;
  try (unfold decode_string0, decode_longstring0, decode_date0, read_byte; solve [kp]).
  - eapply (@keeps_bind _ _ _ any); [apply keeps_object0, IH|]. intros; kp.
  - unfold decode_reference0. eapply (@keeps_bind _ _ _ any); [kp|]. intros z _. apply keeps_same. intros d.
    destruct (len (d_ref0 d) <? z), (z =? len (d_ref0 d)); reflexivity.
  - unfold decode_ecma0. eapply (@keeps_bind _ _ _ any); [kp|]. intros ? _. eapply (@keeps_bind _ _ _ any); [apply keeps_object0, IH|intros; kp].
  - unfold decode_strict0. eapply (@keeps_bind _ _ _ any); [kp|]. intros ? _. eapply (@keeps_bind _ _ _ any); [unfold ref0_push; kp|]. intros ? _.
    eapply (@keeps_bind _ _ _ any); [apply keeps_loop_n, IH|intros; kp].
  - unfold decode_typed0. eapply (@keeps_bind _ _ _ any); [unfold ref0_push; kp|]. intros ? _.
    eapply (@keeps_bind _ _ _ any); [unfold decode_string0; kp|]. intros ? _. eapply (@keeps_bind _ _ _ any); [apply keeps_object0, IH|intros; kp].
  - apply keeps_dec3.
Qed.

Lemma decode0_heap d : extends (d_heap d) (d_heap (fst (decode0 d))).
Proof.
  unfold decode0. destruct (keeps_dec0 (length (d_heap d)) (fuel_for d) d (le_n _)) as (_ & H & _).
  rewrite firstn_all in H. exists (skipn (length (d_heap d)) (d_heap (fst (dec0 (fuel_for d) d)))).
  rewrite <- H at 1. rewrite firstn_skipn. reflexivity.
Qed.
Lemma decode3_heap d : extends (d_heap d) (d_heap (fst (decode3 d))).
Proof.
  unfold decode3. destruct (keeps_dec3 (length (d_heap d)) (fuel_for d) d (le_n _)) as (_ & H & _).
  rewrite firstn_all in H. exists (skipn (length (d_heap d)) (d_heap (fst (dec3 (fuel_for d) d)))).
  rewrite <- H at 1. rewrite firstn_skipn. reflexivity.
Qed.

(** ** History *)
Lemma later_ext dec d d' : (forall x, step_ok x (fst (dec x)) /\ extends (d_heap x) (d_heap (fst (dec x)))) -> later dec d d' ->
  extends (d_ref0 d) (d_ref0 d') /\ extends (d_str3 d) (d_str3 d') /\ extends (d_obj3 d) (d_obj3 d') /\
  extends (d_trait3 d) (d_trait3 d') /\ extends (d_heap d) (d_heap d').
Proof.
  intros Hd. induction 1 as [d|d r d'' _ IH].
  - repeat split; apply extends_refl.
  - destruct (Hd (set_r r d)) as [(A1 & A2 & A3 & A4 & _) A5]. destruct IH as (B1 & B2 & B3 & B4 & B5).
    cbn [d_ref0 d_str3 d_obj3 d_trait3 d_heap set_r] in *. repeat split; eapply extends_trans; eassumption.
Qed.
Lemma later0_ext d d' : later decode0 d d' -> extends (d_ref0 d) (d_ref0 d') /\ extends (d_heap d) (d_heap d').
Proof.
  intros H. eapply later_ext in H; [tauto|]. intros x. split; [apply tame_dec0|apply decode0_heap].
Qed.
Lemma later3_ext d d' : later decode3 d d' ->
  extends (d_str3 d) (d_str3 d') /\ extends (d_obj3 d) (d_obj3 d') /\ extends (d_heap d) (d_heap d').
Proof.
  intros H. eapply later_ext in H; [tauto|]. intros x. split; [apply tame_dec3|apply decode3_heap].
Qed.

Lemma decode0_ref d i rest e v : 0 <= i < 65536 -> d_r d = contr (7 :: be16 i ++ rest) e ->
  nth_error (d_ref0 d) (Z.to_nat i) = Some v -> decode0 d = (set_r (contr rest e) d, Ok v).
Proof.
  intros Hi Hr Hn. unfold decode0, fuel_for. cbn [dec0].
  erewrite dbind_ok by (apply read_byte_contr; exact Hr). cbn -[read_be].
  unfold decode_reference0. change 2 with (len (be16 i)).
  erewrite dbind_ok by (apply (read_be_contr _ (be16 i) rest e); [reflexivity|reflexivity]).
  rewrite be_val_be16, Z.mod_small by lia. cbn [d_ref0 set_r].
  assert (Hl : i < len (d_ref0 d)).
  { assert (Z.to_nat i < length (d_ref0 d))%nat by (apply nth_error_Some; congruence). unfold len. lia. }
  destruct (len (d_ref0 d) <? i) eqn:E1; [lia|]. destruct (i =? len (d_ref0 d)) eqn:E2; [lia|].
  erewrite nth_error_nth by exact Hn. destruct d; reflexivity.
Qed.

(** An object decoded from marker 3 or 8 occupies the next free reference index. *)
Lemma object_cached d m s e d' v : d_r d = contr (m :: s) e -> m = 3 \/ m = 8 -> decode0 d = (d', Ok v) ->
  nth_error (d_ref0 d') (length (d_ref0 d)) = Some v.
Proof.
  intros Hr Hm. unfold decode0, fuel_for. cbn [dec0].
  erewrite dbind_ok by (apply read_byte_contr; exact Hr).
  assert (G : forall f x x' w, decode_object0 (dec0 f) f x = (x', Ok w) -> nth_error (d_ref0 x') (length (d_ref0 x)) = Some (VObj w)).
  { intros f x x' w. unfold decode_object0. cbn [dbind alloc ref0_push].
    unfold dbind. cbn [alloc ref0_push]. cbn [set_heap d_ref0].
    match goal with |- context [obj_loop ?a ?b ?c ?y] => set (X := y);
      pose proof (tame_obj_loop a (tame_dec0 b) c b X) as [(HX & _) _]; destruct (obj_loop a b c X) as [x1 [u|e1| |]] end; try discriminate.
    intros H; inversion H; subst. eapply extends_nth; [exact HX|]. subst X. cbn [set_ref0 d_ref0].
    rewrite nth_error_app2 by lia. rewrite Nat.sub_diag. reflexivity. }
  destruct Hm as [-> | ->]; cbn -[read_be decode_object0 obj_loop].
  - unfold dbind. destruct (decode_object0 _ _ _) as [x [w|er| |]] eqn:E; try discriminate. intros H; inversion H; subst.
    apply G in E. exact E.
  - unfold decode_ecma0, dbind. pose proof (read_be_heap := tt).
    destruct (read_be 4 _) as [x0 [w0|er| |]] eqn:E0; try discriminate.
    destruct (decode_object0 _ _ _) as [x [w|er| |]] eqn:E; try discriminate. intros H; inversion H; subst.
    apply G in E. replace (d_ref0 d) with (d_ref0 x0); [exact E|].
    unfold read_be in E0. destruct (read_full 4 _) as [rr [ss|ee| |]]; inversion E0; subst; reflexivity.
Qed.

Section PvalInd.
  (** Induction on derivations of [unfolds] through the nested lists is replaced by induction on the size of the value. *)
  Fixpoint psize (p : pval) : nat :=
    match p with
    | PArr l => S (fold_right (fun x n => psize x + n)%nat O l)
    | PEcma l fs => S (fold_right (fun x n => psize x + n)%nat O l + fold_right (fun f n => psize (snd f) + n)%nat O fs)
    | PObj fs => S (fold_right (fun f n => psize (snd f) + n)%nat O fs)
    | PTyped _ fs => S (fold_right (fun f n => psize (snd f) + n)%nat O fs)
    | _ => O
    end.
End PvalInd.
Lemma psize_in (l : list pval) p : In p l -> (psize p <= fold_right (fun x n => psize x + n)%nat O l)%nat.
Proof. induction l as [|q l IH]; intros []; cbn; [subst; lia|]. specialize (IH H). lia. Qed.
Lemma psize_in_f (l : list (bytes * pval)) f : In f l -> (psize (snd f) <= fold_right (fun x n => psize (snd x) + n)%nat O l)%nat.
Proof. induction l as [|q l IH]; intros []; cbn; [subst; lia|]. specialize (IH H). lia. Qed.

Lemma Forall2_impl_in {A B} (P Q : A -> B -> Prop) l l' : (forall a b, In b l' -> P a b -> Q a b) -> Forall2 P l l' -> Forall2 Q l l'.
Proof.
  intros H. induction 1 as [|a b l l' Hab _ IH]; constructor.
  - apply H; [left; reflexivity|exact Hab].
  - apply IH. intros x y Hy. apply H. right; exact Hy.
Qed.

Lemma unfolds_extends h h' : extends h h' -> forall v p, unfolds h v p -> unfolds h' v p.
Proof.
  intros X v p. revert v. induction p as [p IH] using (well_founded_induction (Wf_nat.well_founded_ltof _ psize)).
  unfold Wf_nat.ltof in IH.
  assert (FS : forall (m : omap) (fs fs' : list (bytes * pval)), (forall f, In f fs' -> psize (snd f) < psize p)%nat -> Permutation fs fs' ->
    Forall2 (fun a b => fst a = fst b /\ unfolds h (snd a) (snd b)) m fs ->
    Forall2 (fun a b => fst a = fst b /\ unfolds h' (snd a) (snd b)) m fs).
  { intros m fs fs' Hs HP. apply Forall2_impl_in. intros a b Hb [H1 H2]. split; [exact H1|].
    apply IH; [|exact H2]. apply Hs. eapply Permutation_in; eassumption. }
  assert (AR : forall l ps, (forall q, In q ps -> psize q < psize p)%nat -> Forall2 (unfolds h) l ps -> Forall2 (unfolds h') l ps).
  { intros l ps Hs. apply Forall2_impl_in. intros a b Hb H1. apply IH; [apply Hs, Hb|exact H1]. }
  intros v Hu. destruct Hu as [ | | | | | | |l ps HF|l ps loc m fs fs' HA Hn HF HP|l ps HF|loc m fs fs' Hn HF HP|ty loc m fs fs' Hn HF HP|ty]; try constructor.
  - apply AR; [|exact HF]. intros q Hq. apply psize_in in Hq. cbn. lia.
  - eapply U_ecma; [apply AR; [|exact HA]|eapply extends_nth; eassumption|eapply FS; [|exact HP|exact HF]|exact HP].
    + intros q Hq. apply psize_in in Hq. cbn. lia.
    + intros f Hf. apply psize_in_f in Hf. cbn. lia.
  - apply AR; [|exact HF]. intros q Hq. apply psize_in in Hq. cbn. lia.
  - eapply U_obj; [eapply extends_nth; eassumption|eapply FS; [|exact HP|exact HF]|exact HP].
    intros f Hf. apply psize_in_f in Hf. cbn. lia.
  - eapply U_typed; [eapply extends_nth; eassumption|eapply FS; [|exact HP|exact HF]|exact HP].
    intros f Hf. apply psize_in_f in Hf. cbn. lia.
Qed.
