(** C154: request URIs, addresses and Via values, for every text. *)
From Coq Require Import String.
From Verif Require Import Base.Go Base.GoFacts Base.IO Base.Text Model.Sip Spec.Sip Proofs.Text Proofs.Sip Proofs.SipMsg Proofs.SipHeaders Proofs.SipMore Proofs.SipAddr Spec.SipAddr.
Import ListNotations. Local Open Scope list_scope. Local Open Scope Z_scope.

Lemma request_eq uri front params ty u h o : before_params uri front params -> uri_fields front (str "sip") ty u h o ->
  exists a, params_of params a /\ new_request uri = bind a (fun a => Ok (mkReq ty u h o a uri)).
Proof.
  intros B F. eexists. split; [apply params_eq; eapply before_stops, B|]. unfold new_request. rewrite (request_loop _ _ _ _ _ _ _ B F). reflexivity.
Qed.
Theorem C154_request_exactly : forall uri r, new_request uri = Ok r <-> request_of uri r.
Proof.
  intros uri r. split.
  - intros H. destruct (before_exists uri) as [front [params B]]. destruct (fields_exist front (str "sip")) as [ty [u [h [o F]]]].
    destruct (request_eq _ _ _ _ _ _ _ B F) as [a [P E]]. rewrite E in H. destruct a as [a| | |]; try discriminate. injection H as <-. exists front, params. auto.
  - intros [front [params [B [P [S F]]]]]. destruct (request_eq _ _ _ _ _ _ _ B F) as [a [P' ->]]. rewrite (params_fun _ _ _ P' P). cbn [bind]. rewrite <- S. now destruct r.
Qed.
Theorem C154_request_panics : forall uri, new_request uri = Panic <-> exists front t, before_params uri front (str ";" ++ t) /\ parse_args_pairs t = Panic.
Proof.
  intros uri. split.
  - intros H. destruct (before_exists uri) as [front [params B]]. destruct (fields_exist front (str "sip")) as [ty [u [h [o F]]]].
    destruct (request_eq _ _ _ _ _ _ _ B F) as [a [P E]]. rewrite E in H. destruct P as [[-> ->]|[t [-> ->]]]; [discriminate|]. exists front, t. split; [assumption|]. destruct (parse_args_pairs t); try discriminate; reflexivity.
  - intros [front [t [B P]]]. destruct (fields_exist front (str "sip")) as [ty [u [h [o F]]]]. destruct (request_eq _ _ _ _ _ _ _ B F) as [a [P' ->]].
    destruct P' as [[E _]|[t' [E ->]]]; [discriminate|]. injection E as <-. now rewrite P.
Qed.

Lemma user_eq text front params ty u h o : before_params text front params -> words_fields (str "sip") (words front) ty u h o ->
  exists a, params_of params a /\ new_user text = bind a (fun a => Ok (mkUser ty [] u h o a text)).
Proof.
  intros B F. eexists. split; [apply params_eq; eapply before_stops, B|]. unfold new_user. rewrite (address_loop _ _ _ _ _ _ _ B F). reflexivity.
Qed.
Theorem C154_address_exactly : forall text r, new_user text = Ok r <-> user_of text r.
Proof.
  intros text r. split.
  - intros H. destruct (before_exists text) as [front [params B]]. destruct (words_fields_exist (words front) (str "sip")) as [ty [u [h [o F]]]].
    destruct (user_eq _ _ _ _ _ _ _ B F) as [a [P E]]. rewrite E in H. destruct a as [a| | |]; try discriminate. injection H as <-. exists front, params. repeat split; auto; apply B.
  - intros [front [params [B [P [S [N F]]]]]]. destruct (user_eq _ _ _ _ _ _ _ B F) as [a [P' ->]]. rewrite (params_fun _ _ _ P' P). cbn [bind]. rewrite <- S, <- N. now destruct r.
Qed.
Theorem C154_address_panics : forall text, new_user text = Panic <-> exists front t, before_params text front (str ";" ++ t) /\ parse_args_pairs t = Panic.
Proof.
  intros text. split.
  - intros H. destruct (before_exists text) as [front [params B]]. destruct (words_fields_exist (words front) (str "sip")) as [ty [u [h [o F]]]].
    destruct (user_eq _ _ _ _ _ _ _ B F) as [a [P E]]. rewrite E in H. destruct P as [[-> ->]|[t [-> ->]]]; [discriminate|]. exists front, t. split; [assumption|]. destruct (parse_args_pairs t); try discriminate; reflexivity.
  - intros [front [t [B P]]]. destruct (words_fields_exist (words front) (str "sip")) as [ty [u [h [o F]]]]. destruct (user_eq _ _ _ _ _ _ _ B F) as [a [P' ->]].
    destruct P' as [[E _]|[t' [E ->]]]; [discriminate|]. injection E as <-. now rewrite P.
Qed.

Lemma via_eq text tr h o params : via_split text tr h o params ->
  exists a, params_of params a /\ new_via text = bind a (fun a => Ok (mkVia tr h o a text)).
Proof.
  intros S. eexists. split; [apply params_eq; exact (proj1 (via_split_loop _ _ _ _ _ S))|]. unfold new_via. rewrite (via_text _ _ _ _ _ S). reflexivity.
Qed.
Theorem C154_via_exactly : forall text v, new_via text = Ok v <-> via_of text v.
Proof.
  intros text v. split.
  - intros H. destruct (via_split_exists text) as [tr [h [o [params S]]]]. destruct (via_eq _ _ _ _ _ S) as [a [P E]]. rewrite E in H. destruct a as [a| | |]; try discriminate. injection H as <-. split; [reflexivity|]. exists params. auto.
  - intros [E [params [S P]]]. destruct (via_eq _ _ _ _ _ S) as [a [P' ->]]. rewrite (params_fun _ _ _ P' P). cbn [bind]. rewrite <- E. now destruct v.
Qed.
Theorem C154_via_panics : forall text, new_via text = Panic <-> exists tr h o t, via_split text tr h o (str ";" ++ t) /\ parse_args_pairs t = Panic.
Proof.
  intros text. split.
  - intros H. destruct (via_split_exists text) as [tr [h [o [params S]]]]. destruct (via_eq _ _ _ _ _ S) as [a [P E]]. rewrite E in H. destruct P as [[-> ->]|[t [-> ->]]]; [discriminate|]. exists tr, h, o, t. split; [assumption|]. destruct (parse_args_pairs t); try discriminate; reflexivity.
  - intros [tr [h [o [t [S P]]]]]. destruct (via_eq _ _ _ _ _ S) as [a [P' ->]]. destruct P' as [[E _]|[t' [E ->]]]; [discriminate|]. injection E as <-. now rewrite P.
Qed.
(** Every text has fields: it is parsed or panics, and no third thing. *)
Theorem C154_no_errors : forall t,
  ((exists r, request_of t r) \/ new_request t = Panic) /\ ((exists u, user_of t u) \/ new_user t = Panic) /\ ((exists v, via_of t v) \/ new_via t = Panic).
Proof.
  intros t. split; [|split].
  - destruct (new_request_res t) as [[r R]|R]; [left; exists r; now apply C154_request_exactly|now right].
  - destruct (new_user_res t) as [[r R]|R]; [left; exists r; now apply C154_address_exactly|now right].
  - destruct (new_via_res t) as [[r R]|R]; [left; exists r; now apply C154_via_exactly|now right].
Qed.

Example C154_request_example : exists a, request_of (str "x sips:a:b@c:d:e@f;k=v") (mkReq (str "sips") (str "a:b") (str "c") (str "d:e@f") a (str "x sips:a:b@c:d:e@f;k=v")) /\ args_get a (str "k") = str "v".
Proof. eexists. split; [apply C154_request_exactly; vm_compute; reflexivity|reflexivity]. Qed.
Example C154_address_example : user_of (str "sip:a@b:1 tel:c@d sip:e>") (mkUser (str "sip") [] (str "ace") (str "bd") (str "1") [] (str "sip:a@b:1 tel:c@d sip:e>")).
Proof. apply C154_address_exactly. vm_compute. reflexivity. Qed.
Example C154_via_example : exists a, via_of (str "x SIP/2.0/SCTP h h : 5 060;branch=z") (mkVia (str "SCTP") (str "hh") (str "5060") a (str "x SIP/2.0/SCTP h h : 5 060;branch=z")) /\ args_get a (str "branch") = str "z".
Proof. eexists. split; [apply C154_via_exactly; vm_compute; reflexivity|reflexivity]. Qed.
Example C154_other_transport_example : exists v, via_of (str "SIP/2.0/udp h") v /\ v_trans v = [] /\ v_host v = str "dph".
Proof. eexists. split; [apply C154_via_exactly; vm_compute; reflexivity|split; reflexivity]. Qed.
Example C154_panic_example : new_request (str "sip:a@b;x=") = Panic /\ new_user (str "sip:a@b;x=") = Panic /\ new_via (str "SIP/2.0/UDP h;x=") = Panic.
Proof. repeat split; reflexivity. Qed.
Print Assumptions C154_request_exactly.
Print Assumptions C154_request_panics.
Print Assumptions C154_address_exactly.
Print Assumptions C154_address_panics.
Print Assumptions C154_via_exactly.
Print Assumptions C154_via_panics.
Print Assumptions C154_no_errors.
