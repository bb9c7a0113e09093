(** C144, C145: argument maps over any history, and their text with one argument per line. *)
From Coq Require Import String Permutation.
From Verif Require Import Base.Go Base.GoFacts Base.IO Base.Text Model.Sip Spec.Sip Proofs.Text Proofs.Sip Proofs.SipArgs.
Import ListNotations. Local Open Scope list_scope. Local Open Scope Z_scope.

(** ** C144: Set and Del *)
Inductive args_op := ASet (k v : bytes) | ADel (k : bytes).
Definition args_step (a : args) (o : args_op) : args := match o with ASet k v => args_set a k v | ADel k => args_del a k end.
(** The key an operation is about, and what it leaves there ([None]: no such argument). *)
Definition op_key (o : args_op) : bytes := match o with ASet k _ => k | ADel k => k end.
Definition op_leaves (o : args_op) : option bytes := match o with ASet _ v => Some v | ADel _ => None end.
(** The argument k after the history, given as relation: the last operation on k decides; without one, nothing
    changed. *)
Inductive last_says (start : args) (k : bytes) : list args_op -> option bytes -> Prop :=
| LS_untouched ops : Forall (fun o => op_key o <> k) ops -> last_says start k ops (mget k start)
| LS_last before o after : op_key o = k -> Forall (fun o => op_key o <> k) after -> last_says start k (before ++ o :: after) (op_leaves o).

Lemma args_run_untouched ops : forall a k, Forall (fun o => op_key o <> k) ops -> mget k (fold_left args_step ops a) = mget k a.
Proof.
  induction ops as [|o ops IH]; intros a k H; [reflexivity|]. inversion H as [|x l Ho Hl]; subst. cbn [fold_left]. rewrite IH by assumption.
  destruct o as [k' v|k']; cbn [args_step op_key] in *.
  - apply mget_mset_other. congruence.
  - rewrite mget_del. destruct (bytes_eqb k k') eqn:E; [apply bytes_eqb_eq in E; congruence|reflexivity].
Qed.
Lemma args_run_last start k ops r : last_says start k ops r -> mget k (fold_left args_step ops start) = r.
Proof.
  intros [ops' H|before o after Ho Ha]; [now apply args_run_untouched|]. rewrite fold_left_app. cbn [fold_left]. rewrite args_run_untouched by assumption.
  destruct o as [k' v|k']; cbn [args_step op_key op_leaves] in *; subst k'; [apply mget_mset_same|]. rewrite mget_del, bytes_eqb_refl. reflexivity.
Qed.
Lemma last_says_ex start k ops : exists r, last_says start k ops r.
Proof.
  induction ops as [|o ops IH] using rev_ind; [eexists; apply LS_untouched; constructor|].
  destruct (list_eq_dec Z.eq_dec (op_key o) k) as [E|E]; [eexists; apply (LS_last start k ops o []); [assumption|constructor]|].
  destruct IH as [r [ops' H|before o' after Ho Ha]].
  - eexists. apply LS_untouched. apply Forall_app. split; [assumption|repeat constructor; assumption].
  - eexists. rewrite <- app_assoc. cbn [app]. apply LS_last; [eassumption|]. apply Forall_app. split; [assumption|repeat constructor; assumption].
Qed.

(** After any history Get gives what the last operation on the key left, and the empty text for an argument that is not
    there; an argument is there exactly if the last operation on it says so, and once. *)
Theorem C144_history : forall start ops k r, NoDup (map fst start) -> last_says start k ops r ->
  let a := fold_left args_step ops start in
  args_get a k = match r with Some v => v | None => [] end /\
  (forall v, In (k, v) a <-> r = Some v) /\ NoDup (map fst a).
Proof.
  intros start ops k r Hn Hr a. pose proof (args_run_last start k ops r Hr) as E. fold a in E.
  assert (Hd : NoDup (map fst a)).
  { subst a. clear -Hn. revert start Hn. induction ops as [|o ops IH]; intros start Hn; [assumption|]. cbn [fold_left]. apply IH. destruct o; cbn [args_step].
    - now apply nodup_mset.
    - now apply keys_filter. }
  split; [|split; [|assumption]].
  - unfold args_get. now rewrite E.
  - intros v. rewrite <- E. split; [now apply in_mget|now apply mget_in].
Qed.
(** Every history says something, and only one thing, about every key. *)
Theorem C144_defined : forall start ops k, exists r, last_says start k ops r /\ forall r', last_says start k ops r' -> r' = r.
Proof.
  intros start ops k. destruct (last_says_ex start k ops) as [r Hr]. exists r. split; [assumption|]. intros r' Hr'.
  apply args_run_last in Hr, Hr'. congruence.
Qed.
(** Deleting an absent argument is a no-op (the comment at sips/header_args.go:92). *)
Theorem C144_del_absent : forall a k, (forall v, ~ In (k, v) a) -> args_del a k = a.
Proof.
  intros a k H. unfold args_del. induction a as [|[k0 v0] a IH]; [reflexivity|]. cbn [filter fst]. destruct (bytes_eqb k k0) eqn:E.
  - apply bytes_eqb_eq in E. subst. elim (H v0). now left.
  - cbn [negb]. rewrite IH; [reflexivity|]. intros v C. apply (H v). now right.
Qed.
Example C144_ex :
  let ops := [ASet (str "tag") (str "1"); ASet (str "lr") []; ADel (str "tag"); ASet (str "q") (str "0.7"); ADel (str "x")] in
  last_says new_args (str "tag") ops None /\ last_says new_args (str "q") ops (Some (str "0.7")) /\
  fold_left args_step ops new_args = [(str "lr", []); (str "q", str "0.7")].
Proof.
  split; [|split; [|reflexivity]].
  - apply (LS_last new_args (str "tag") [_; _] (ADel (str "tag")) [_; _]); [reflexivity|repeat constructor; discriminate].
  - apply (LS_last new_args (str "q") [_; _; _] (ASet (str "q") (str "0.7")) [_]); [reflexivity|repeat constructor; discriminate].
Qed.
Print Assumptions C144_history.
Print Assumptions C144_defined.
Print Assumptions C144_del_absent.

(** ** C145: one argument per line *)
(** The text has one line "key=value" per argument, in iteration order. *)
Theorem C145_lines : forall a, crlf_string a = with_crlf (map (fun p => fst p ++ str "=" ++ snd p) a).
Proof. intros a. unfold crlf_string, with_crlf. induction a as [|p a IH]; [reflexivity|]. cbn [flat_map map]. rewrite IH. repeat (rewrite <- ?app_assoc; cbn [app]). reflexivity. Qed.
(** Reading it back panics as soon as one argument has no value. *)
Theorem C145_round_trip_refuted : forall a, plain_args a -> Exists (fun p => snd p = []) a -> parse_args_pairs (crlf_string a) = Panic.
Proof. intros a [_ Hp]. now apply parse_crlf_empty. Qed.
(** With values everywhere the arguments come back. *)
Theorem C145_round_trip_partial : forall a, plain_args a -> Forall (fun p => snd p <> []) a ->
  exists a', parse_args_pairs (crlf_string a) = Ok a' /\ same_map a' a.
Proof.
  intros a [Hn Hp] Hv. exists a. split; [|intros k; reflexivity]. apply parse_crlf; [assumption|]. rewrite Forall_forall in *. intros p Hi. split; auto.
Qed.
Example C145_ex : let a := [(str "v", str "0"); (str "s", str "Play"); (str "c", str "IN/IP4=127.0.0.1")] in
  plain_args a /\ Forall (fun p => snd p <> []) a /\ crlf_string a = str "v=0" ++ [13; 10] ++ str "s=Play" ++ [13; 10] ++ str "c=IN/IP4=127.0.0.1" ++ [13; 10].
Proof.
  split; [|split; [repeat constructor; discriminate|reflexivity]].
  split; [repeat constructor; cbn; intuition discriminate|].
  unfold plain_param, without, graphic. repeat (apply Forall_cons || apply Forall_nil || split); cbn; intuition (discriminate || lia).
Qed.
Print Assumptions C145_lines.
Print Assumptions C145_round_trip_refuted.
Print Assumptions C145_round_trip_partial.
Example C145_refuted_ex : let a := [(str "transport", str "tcp"); (str "lr", [])] in
  plain_args a /\ Exists (fun p => snd p = []) a /\ crlf_string a = str "transport=tcp" ++ [13; 10] ++ str "lr=" ++ [13; 10].
Proof.
  split; [|split; [apply Exists_cons_tl, Exists_cons_hd; reflexivity|reflexivity]].
  split; [repeat constructor; cbn; intuition discriminate|].
  unfold plain_param, without, graphic. repeat (apply Forall_cons || apply Forall_nil || split); cbn; intuition (discriminate || lia).
Qed.
