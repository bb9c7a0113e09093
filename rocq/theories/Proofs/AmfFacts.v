(** Shared lemmas for the amf proofs. *)
From Coq Require Import Permutation.
From Verif Require Import Base.Go Base.GoFacts Base.IO Base.Float64 Proofs.IOFacts
  Model.AmfTypes Spec.Amf.

(** Induction principle for trees that goes through lists. *)
Section TreeInd.
  Variable P : tree -> Prop.
  Hypothesis Hnil : P TNil.
  Hypothesis Hbool : forall b, P (TBool b).
  Hypothesis Hfloat : forall b, P (TFloat b).
  Hypothesis Hint : forall w z, P (TInt w z).
  Hypothesis Huint : forall w z, P (TUint w z).
  Hypothesis Hstr : forall s, P (TStr s).
  Hypothesis Htime : forall s, P (TTime s).
  Hypothesis Hbytes : forall s, P (TBytes s).
  Hypothesis Harr : forall l, Forall P l -> P (TArr l).
  Hypothesis Hobj : forall fs, Forall (fun p => P (snd p)) fs -> P (TObj fs).
  Hypothesis Htyped : forall ty fs, Forall (fun p => P (snd p)) fs -> P (TTyped ty fs).
  Hypothesis Hother : P TOther.
  Fixpoint tree_ind' (t : tree) : P t :=
    match t with
    | TNil => Hnil
    | TBool b => Hbool b
    | TFloat b => Hfloat b
    | TInt w z => Hint w z
    | TUint w z => Huint w z
    | TStr s => Hstr s
    | TTime s => Htime s
    | TBytes s => Hbytes s
    | TArr l => Harr l ((fix go l := match l return Forall P l with
                         | [] => Forall_nil P
                         | x :: l' => Forall_cons x (tree_ind' x) (go l') end) l)
    | TObj fs => Hobj fs ((fix go l := match l return Forall (fun p => P (snd p)) l with
                         | [] => Forall_nil _
                         | x :: l' => Forall_cons x (tree_ind' (snd x)) (go l') end) fs)
    | TTyped ty fs => Htyped ty fs ((fix go l := match l return Forall (fun p => P (snd p)) l with
                         | [] => Forall_nil _
                         | x :: l' => Forall_cons x (tree_ind' (snd x)) (go l') end) fs)
    | TOther => Hother
    end.
End TreeInd.

Lemma all_of_map {A} (P : A -> Prop) l : all_of (map P l) <-> Forall P l.
Proof.
  unfold all_of. induction l as [|x l IH]; cbn; split; intros H; auto.
  - destruct H as [H1 H2]. constructor; tauto.
  - inversion H; subst. tauto.
Qed.

Lemma cont_contr s e : cont s e = contr s e.
Proof. reflexivity. Qed.

(** Finite maps as lists. *)
Lemma map_set_fresh k v m : ~ In k (map fst m) -> map_set k v m = m ++ [(k, v)].
Proof.
  induction m as [|[k' v'] m IH]; cbn [map_set map fst In app]; intros H; [reflexivity|].
  destruct (bytes_eqb k k') eqn:E.
  - apply bytes_eqb_eq in E. subst. tauto.
  - rewrite IH by tauto. reflexivity.
Qed.

Lemma upd_nth_app {A} (f : A -> A) h x hs : upd_nth (length h) f (h ++ x :: hs) = h ++ f x :: hs.
Proof. induction h as [|y h IH]; cbn; [reflexivity|]. rewrite IH. reflexivity. Qed.

Lemma nth_error_len {A} (h : list A) x hs : nth_error (h ++ x :: hs) (length h) = Some x.
Proof. induction h; cbn; auto. Qed.

(** [agree H h a b]: heaps H and h have the same maps at locations a <= i < b. *)
Definition agree (H h : list omap) (a b : nat) : Prop :=
  forall i, (a <= i < b)%nat -> nth_error H i = nth_error h i.

(** A value decoded into locations [a, b) of heap h. *)
Definition local_unfolds (h : list omap) (a b : nat) (v : value) (p : pval) : Prop :=
  forall H, agree H h a b -> unfolds H v p.

Lemma local_unfolds_weaken h h' a b a' b' v p :
  local_unfolds h a b v p -> (a' <= a)%nat -> (b <= b')%nat ->
  (forall i, (a <= i < b)%nat -> nth_error h' i = nth_error h i) ->
  local_unfolds h' a' b' v p.
Proof.
  intros Hl Ha Hb He H HH. apply Hl. intros i Hi. rewrite HH by lia. apply He. exact Hi.
Qed.

(** Reads from a contiguous reader. *)
Lemma read_bytes_contr d a b e : d_r d = contr (a ++ b) e -> 0 < len a ->
  read_bytes (len a) d = (set_r (contr b e) d, Ok a).
Proof.
  intros Hr Ha. unfold read_bytes. rewrite Hr, read_contr by assumption.
  rewrite Z.eqb_refl. reflexivity.
Qed.
Lemma read_bytes_contr0 d b e : d_r d = contr b e -> b <> [] \/ e_zero e = false ->
  read_bytes 0 d = (set_r (contr b e) d, Ok []).
Proof.
  intros Hr Ha. unfold read_bytes. rewrite Hr, read0_contr by assumption. reflexivity.
Qed.
Lemma read_byte_contr d x b e : d_r d = contr (x :: b) e ->
  read_byte d = (set_r (contr b e) d, Ok x).
Proof.
  intros Hr. unfold read_byte, dbind.
  change 1 with (len [x]). rewrite (read_bytes_contr d [x] b e Hr) by reflexivity. reflexivity.
Qed.
Lemma read_be_contr d a b e : d_r d = contr (a ++ b) e -> 0 < len a ->
  read_be (len a) d = (set_r (contr b e) d, Ok (be_val a)).
Proof.
  intros Hr Ha. unfold read_be. rewrite Hr, read_full_contr by assumption. reflexivity.
Qed.

Lemma set_r_r r d : d_r (set_r r d) = r. Proof. reflexivity. Qed.
Lemma set_r_heap r d : d_heap (set_r r d) = d_heap d. Proof. reflexivity. Qed.
