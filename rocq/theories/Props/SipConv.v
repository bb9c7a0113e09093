(** C210: addresses converted into one another have their parameters in common, and nothing else. *)
From Coq Require Import String.
From Verif Require Import Base.Go Base.GoFacts Base.IO Base.Text Model.Sip Model.SipConv Spec.SipConv Proofs.Text Proofs.SipArgs Proofs.SipConv.
Import ListNotations. Local Open Scope list_scope. Local Open Scope nat_scope.

Lemma seen_ex h i : i < length (addresses h) -> exists a m, nth_error (addresses h) i = Some (a, m) /\ seen h i = Some (put_args a (nth m (maps h) new_args)).
Proof.
  intros H. unfold seen. destruct (nth_error (addresses h) i) as [[a m]|] eqn:E; [|apply nth_error_None in E; lia]. exists a, m. split; reflexivity.
Qed.
(** After any calls every address has, in each of its four fields, the value last assigned to it, and under each key the value
    last set on it or on any address related to it by conversions. *)
Theorem C210_history : forall os, legal os -> exists h, addr_run no_memory os = Ok h /\
  forall i, i < made os -> exists a, seen h i = Some a /\
    (forall p v, last_part os i p v -> part_of a p = v) /\
    (forall k o, last_arg os i k o -> mget k (args_of a) = o /\ args_get (args_of a) k = match o with Some v => v | None => [] end).
Proof.
  intros os L. destruct (run_holds os L) as (h & E & HL & HM & HR & HP & HA). exists h. split; [exact E|]. intros i Hi.
  destruct (seen_ex h i ltac:(lia)) as (a & m & G & S). eexists. split; [exact S|]. split.
  - intros p v H. rewrite part_put_args. eapply HP; eassumption.
  - intros k o H. rewrite args_put. pose proof (HA _ _ _ _ _ G H) as X. split; [exact X|]. unfold args_get. rewrite X. reflexivity.
Qed.
Print Assumptions C210_history.
(** These values are defined, and by the calls alone. *)
Theorem C210_defined : forall os i, legal os -> i < made os ->
  (forall p, exists! v, last_part os i p v) /\ (forall k, exists! o, last_arg os i k o).
Proof.
  intros os i L Hi. destruct (C210_history os L) as (h & _ & H). destruct (H i Hi) as (a & _ & HP & HA). split.
  - intros p. destruct (part_ex os L i p Hi) as [v X]. exists v. split; [exact X|]. intros w Y. rewrite <- (HP _ _ X). exact (HP _ _ Y).
  - intros k. destruct (arg_ex os L i k Hi) as [v X]. exists v. split; [exact X|]. intros w Y. rewrite <- (proj1 (HA _ _ X)). exact (proj1 (HA _ _ Y)).
Qed.
Print Assumptions C210_defined.
(** The parameter is in the text of an address that has it. *)
Lemma in_semicolon k v (m : args) : In (k, v) m -> v <> [] -> exists x y, semicolon_string m = x ++ str ";" ++ k ++ str "=" ++ v ++ y.
Proof.
  intros H N. apply in_split in H as (l1 & l2 & ->). unfold semicolon_string. rewrite flat_map_app. cbn [flat_map].
  eexists (flat_map _ l1), (flat_map _ l2). f_equal. cbn [fst snd]. destruct v as [|c v]; [congruence|]. rewrite <- !app_assoc. reflexivity.
Qed.
Lemma in_text k v a : mget k (args_of a) = Some v -> v <> [] -> exists x y, text a = x ++ str ";" ++ k ++ str "=" ++ v ++ y.
Proof.
  intros H N. apply mget_in in H. destruct (in_semicolon _ _ _ H N) as (x & y & E). destruct a as [u|r]; cbn [text args_of] in *.
  - exists (name_part (u_name u) ++ str "<" ++ u_type u ++ str ":" ++ u_user u ++ str "@" ++ u_host u ++ port_part (u_port u) ++ str ">" ++ x), y.
    unfold user_bytes. rewrite E, <- !app_assoc. reflexivity.
  - exists (r_type r ++ str ":" ++ r_user r ++ str "@" ++ r_host r ++ port_part (r_port r) ++ x), y. unfold request_bytes. rewrite E, <- !app_assoc. reflexivity.
Qed.
(** So an address is never independent of one made from it: a parameter set on the converted address (for example the tag of a To
    header made from a request URI) is in the text of the original from then on, and the other way round. *)
Theorem C210_independent_refuted : forall os i k v, legal os -> i < made os -> v <> [] ->
  (exists h a x y, addr_run no_memory (os ++ [Convert i; SetArg (made os) k v]) = Ok h /\ seen h i = Some a /\ text a = x ++ str ";" ++ k ++ str "=" ++ v ++ y) /\
  (exists h a x y, addr_run no_memory (os ++ [Convert i; SetArg i k v]) = Ok h /\ seen h (made os) = Some a /\ text a = x ++ str ";" ++ k ++ str "=" ++ v ++ y).
Proof.
  intros os i k v L Hi N.
  assert (L1 : legal (os ++ [Convert i])) by (constructor; [exact L|exact Hi]).
  assert (M1 : made (os ++ [Convert i]) = S (made os)) by (rewrite made_snoc; reflexivity).
  assert (R : related (os ++ [Convert i]) (made os) i) by (apply related_convert; [exact Hi|exact Hi|apply related_refl; assumption]).
  split; [change [Convert i; SetArg (made os) k v] with ([Convert i] ++ [SetArg (made os) k v])|change [Convert i; SetArg i k v] with ([Convert i] ++ [SetArg i k v])]; rewrite app_assoc.
  - destruct (C210_history ((os ++ [Convert i]) ++ [SetArg (made os) k v])) as (h & E & H); [constructor; [exact L1|cbn; lia]|].
    destruct (H i) as (a & S & _ & HA); [rewrite made_snoc, M1; cbn; lia|].
    destruct (in_text k v a) as (x & y & T); [apply HA; apply LA_set; apply related_sym, R|exact N|]. exists h, a, x, y. auto.
  - destruct (C210_history ((os ++ [Convert i]) ++ [SetArg i k v])) as (h & E & H); [constructor; [exact L1|cbn; lia]|].
    destruct (H (made os)) as (a & S & _ & HA); [rewrite made_snoc, M1; cbn; lia|].
    destruct (in_text k v a) as (x & y & T); [apply HA; apply LA_set, R|exact N|]. exists h, a, x, y. auto.
Qed.
Print Assumptions C210_independent_refuted.
(** Nothing else passes from one address to another: a call on an address leaves the unrelated ones exactly as they were, and an
    assignment to a field, or writing the text, all others. *)
Definition about (o : addr_op) : option nat := match o with Assign i _ _ | SetArg i _ _ | DelArg i _ | Write i => Some i | _ => None end.
Theorem C210_apart : forall os o h h' j, legal os -> addr_run no_memory os = Ok h -> addr_step h o = Ok h' -> j < made os ->
  (forall i, about o = Some i -> ~ related os i j) \/
  (exists i p v, o = Assign i p v /\ i <> j) \/ (exists i, o = Write i /\ i <> j) ->
  seen h' j = seen h j.
Proof.
  intros os o h h' j L E ES Hj HC. destruct (run_holds os L) as (h0 & E0 & HL & HM & HR & _). assert (h0 = h) as -> by congruence.
  destruct (seen_ex h j ltac:(lia)) as (b & n & Gj & Sj). rewrite Sj.
  assert (NI : forall i a m, about o = Some i -> nth_error (addresses h) i = Some (a, m) -> (exists p v, o = Assign i p v) \/ o = Write i -> i <> j).
  { intros i a m A G W ->. destruct HC as [X|[(i' & p & v & X & Y)|(i' & X & Y)]].
    - apply (X _ A). eapply HR; [exact G|exact G|reflexivity].
    - subst o. injection A as ->. auto.
    - subst o. injection A as ->. auto. }
  destruct o as [t|t|i|i p v|i k v|i k|i]; cbn [addr_step] in ES.
  - destruct (new_user t) as [u| | |]; cbn [bind] in ES; try discriminate ES. injection ES as <-. unfold seen, add_new. cbn [addresses maps].
    rewrite nth_error_app1 by lia. rewrite Gj, app_nth1 by (eapply HM, Gj). reflexivity.
  - destruct (new_request t) as [u| | |]; cbn [bind] in ES; try discriminate ES. injection ES as <-. unfold seen, add_new. cbn [addresses maps].
    rewrite nth_error_app1 by lia. rewrite Gj, app_nth1 by (eapply HM, Gj). reflexivity.
  - destruct (nth_error (addresses h) i) as [[a m]|]; [|discriminate ES]. injection ES as <-. unfold seen. cbn [addresses maps].
    rewrite nth_error_app1 by lia. rewrite Gj. reflexivity.
  - destruct (nth_error (addresses h) i) as [[a m]|] eqn:G; [|discriminate ES]. injection ES as <-. unfold seen. cbn [addresses maps].
    rewrite put_nth_error. destruct (Nat.eq_dec i j) as [->|_]; [|now rewrite Gj]. exfalso. eapply NI; [reflexivity|exact G|eauto|reflexivity].
  - destruct (nth_error (addresses h) i) as [[a m]|] eqn:G; [|discriminate ES]. injection ES as <-. unfold seen. cbn [addresses maps]. rewrite Gj.
    rewrite put_nth_nth by (eapply HM, G). destruct (Nat.eq_dec m n) as [->|_]; [|reflexivity]. exfalso.
    destruct HC as [X|[(i' & p & w & X & _)|(i' & X & _)]]; try discriminate X. apply (X i eq_refl). eapply HR; [exact G|exact Gj|reflexivity].
  - destruct (nth_error (addresses h) i) as [[a m]|] eqn:G; [|discriminate ES]. injection ES as <-. unfold seen. cbn [addresses maps]. rewrite Gj.
    rewrite put_nth_nth by (eapply HM, G). destruct (Nat.eq_dec m n) as [->|_]; [|reflexivity]. exfalso.
    destruct HC as [X|[(i' & p & w & X & _)|(i' & X & _)]]; try discriminate X. apply (X i eq_refl). eapply HR; [exact G|exact Gj|reflexivity].
  - destruct (nth_error (addresses h) i) as [[a m]|] eqn:G; [|discriminate ES]. destruct (seen h i) as [s|]; [|discriminate ES]. injection ES as <-. unfold seen. cbn [addresses maps].
    rewrite put_nth_error. destruct (Nat.eq_dec i j) as [->|_]; [|now rewrite Gj]. exfalso. eapply NI; [reflexivity|exact G|right; reflexivity|reflexivity].
Qed.
Print Assumptions C210_apart.

(** A request URI is parsed and made the To address, which gets a tag: the tag is in the request line too. Another address parsed
    from the same text is as it was; so is the host of the first when that of the To address is changed. *)
Example C210_example :
  let os := [ParseRequest (str "sip:bob@b.org;lr"); ParseRequest (str "sip:bob@b.org;lr"); Convert 0; SetArg 2 (str "tag") (str "77"); Assign 2 Host (str "c.org")] in
  legal os /\
  match addr_run no_memory os with
  | Ok h => option_map text (seen h 0) = Some (str "sip:bob@b.org;lr;tag=77") /\ option_map text (seen h 1) = Some (str "sip:bob@b.org;lr") /\
            option_map text (seen h 2) = Some (str "<sip:bob@c.org>;lr;tag=77")
  | _ => False
  end.
Proof.
  split; [|vm_compute; repeat split].
  apply (legal_snoc [_; _; _; _]); [|cbn; lia]. apply (legal_snoc [_; _; _]); [|cbn; lia]. apply (legal_snoc [_; _]); [|cbn; lia].
  apply (legal_snoc [_]); [|eexists; vm_compute; reflexivity]. apply (legal_snoc []); [constructor|eexists; vm_compute; reflexivity].
Qed.
