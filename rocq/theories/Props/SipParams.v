(** C155: the parameters read from a text. *)
From Coq Require Import String.
From Verif Require Import Base.Go Base.GoFacts Base.IO Base.Text Model.Sip Spec.Sip Proofs.Text Proofs.Sip Proofs.SipMsg Proofs.SipHeaders Proofs.SipParams Spec.SipParams.
Import ListNotations. Local Open Scope list_scope. Local Open Scope Z_scope.

(** Every text divides into elements. *)
Theorem C155_every_text : forall value, exists t es, trimmed value t /\ elements t es.
Proof. intros value. destruct (trimmed_exists value) as [t T]. destruct (elements_exist t) as [es E]. eauto. Qed.
Theorem C155_parameters_exactly : forall value t es, Forall ascii value -> trimmed value t -> elements t es ->
  (parse_args_pairs value = Panic <-> Exists broken es) /\
  (~ Exists broken es -> exists m, parse_args_pairs value = Ok m /\ forall k v, mget k m = Some v <-> last_value es k v).
Proof.
  intros value t es A T E. assert (L : parse_list (trim_space value) = es).
  { rewrite (trim_trimmed _ _ A T). pose proof (trimmed_ascii _ _ A T) as A'. unfold parse_list. rewrite runes_ascii by assumption. exact (list_elements _ _ E A' []). }
  unfold parse_args_pairs. rewrite L. split.
  - destruct (parse_pairs_cases es new_args) as [[H1 H2]|[[m H1] H2]]; [tauto|]. rewrite H1. split; [discriminate|tauto].
  - intros N. destruct (pairs_result es N new_args) as [m [E' M]]. exists m. split; [assumption|]. intros k v. rewrite M. split; [intros [H|[H _]]; [assumption|discriminate]|now left].
Qed.
(** Get gives the last value, and nothing for a key that is not there. *)
Theorem C155_get : forall value t es m k, Forall ascii value -> trimmed value t -> elements t es -> parse_args_pairs value = Ok m ->
  last_value es k (args_get m k) \/ args_get m k = [] /\ forall v, ~ last_value es k v.
Proof.
  intros value t es m k A T E H. destruct (C155_parameters_exactly _ _ _ A T E) as [P1 P2]. assert (N : ~ Exists broken es) by (intros B; apply P1 in B; congruence).
  destruct (P2 N) as [m' [E' M]]. rewrite E' in H. injection H as <-. unfold args_get. destruct (mget k m') as [v|] eqn:G; [left; now apply M|right]. split; [reflexivity|]. intros v L. apply M in L. congruence.
Qed.
Definition sample : bytes := str " a=1; b = 2 ,c;a=" ++ [34] ++ str "x;" ++ [92; 34] ++ str "y" ++ [34] ++ [10] ++ str "d=" ++ [34] ++ str "open ".
Example C155_example : exists t es, Forall ascii sample /\ trimmed sample t /\ elements t es /\ ~ Exists broken es /\
  es = [str "a=1"; str "b = 2"; str "c"; str "a=" ++ [34] ++ str "x;" ++ [34] ++ str "y" ++ [34]; str "d=" ++ [34] ++ str "open"].
Proof.
  destruct (C155_every_text sample) as [t [es [T E]]]. assert (A : Forall ascii sample) by (apply Forall_forall; intros c Hc; unfold ascii; vm_compute in Hc; decompose [or] Hc; subst; try lia; contradiction).
  assert (L : parse_list (trim_space sample) = es). { rewrite (trim_trimmed _ _ A T). pose proof (trimmed_ascii _ _ A T) as A'. unfold parse_list. rewrite runes_ascii by assumption. exact (list_elements _ _ E A' []). }
  exists t, es. split; [assumption|]. split; [assumption|]. split; [assumption|]. split; [|rewrite <- L; vm_compute; reflexivity].
  intros B. apply (C155_parameters_exactly _ _ _ A T E) in B. vm_compute in B. discriminate.
Qed.
Example C155_values_example : exists m, parse_args_pairs sample = Ok m /\ args_get m (str "a") = str "x;" ++ [34] ++ str "y" /\ args_get m (str "b ") = str " 2" /\ mget (str "c") m = Some [] /\ args_get m (str "d") = [34] ++ str "open".
Proof. eexists. split; [vm_compute; reflexivity|]. repeat split; reflexivity. Qed.
Example C155_panic_example : parse_args_pairs (str "a=1;b=") = Panic /\ parse_args_pairs (str "b= ") = Panic.
Proof. split; reflexivity. Qed.
Print Assumptions C155_every_text.
Print Assumptions C155_parameters_exactly.
Print Assumptions C155_get.
