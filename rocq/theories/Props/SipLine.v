(** C152, C153: the first line of a SIP message; parsing into an object that was used before. *)
From Coq Require Import String.
From Verif Require Import Base.Go Base.GoFacts Base.IO Base.Text Model.Sip Spec.Sip Spec.SipLine Proofs.Text Proofs.Sip Proofs.SipMsg Proofs.SipRead Proofs.SipMore Proofs.SipLine.
Import ListNotations. Local Open Scope list_scope. Local Open Scope Z_scope.

(** ** C152: what ParseFirstLine does with every line, on every object. *)
Theorem C152_first_line_exactly : forall line s x r, parse_first_line line s = (x, r) <-> first_line_of line s x r.
Proof.
  intros line s x r. split; [|apply first_line_complete]. intros H. pose proof (first_line_sound line s) as K. rewrite H in K. exact K.
Qed.
(** A status line is recognised by capital SIP: in other spellings the version is taken for a method, and refused. *)
Theorem C152_lower_case_status : forall a b c s, three_words (a ++ str " " ++ b ++ str " " ++ c) a b c -> ~ starts_SIP a -> (exists v, version_word a v) ->
  snd (parse_first_line (a ++ str " " ++ b ++ str " " ++ c) s) = Err EOther.
Proof.
  intros a b c s T P [v V]. erewrite (first_line_complete _ s); [|apply (FL_bad_method _ s a b c T P)]; [reflexivity|].
  intros m M. apply version_iff in V. apply method_iff in M. unfold get_version in V. apply get_method_iff in M. destruct M as [M1 M2].
  assert (U : to_upper a = method_string m) by (apply reads_upper; [assumption|]; pose proof method_names_ok as O; rewrite Forall_forall in O; apply O; unfold method_string; replace (_ && _) with true by lia; apply nth_In; change (length method_names) with 15%nat; lia).
  rewrite U in V. assert (E : exists k, (k < 15)%nat /\ m = Z.of_nat k + 1) by (exists (Z.to_nat (m - 1)); lia). destruct E as [k [Hk ->]]. clear - V Hk.
  do 15 (destruct k as [|k]; [vm_compute in V; discriminate|]). lia.
Qed.
Example C152_status_example : first_line_of (str "SIP/2.0 486 Busy Here") new_sip (object new_sip 2 0 None true 486 (str "Busy Here")) (Ok tt).
Proof. apply C152_first_line_exactly. vm_compute. reflexivity. Qed.
Example C152_request_example : exists r, first_line_of (str "iNVITE sip:bob@h SIP/1.0") new_sip (object new_sip 1 1 (Some r) false 0 []) (Ok tt) /\ r_user r = str "bob".
Proof. eexists. split; [apply C152_first_line_exactly; vm_compute; reflexivity|reflexivity]. Qed.
Example C152_rejected_example :
  first_line_of (str "INVITE sip:bob@h") new_sip new_sip (Err EOther) /\
  first_line_of (str "SIP/3.0 200 OK") new_sip (object new_sip 0 0 None true 0 []) (Err EOther) /\
  first_line_of (str "SIP/2.0 2OO OK") new_sip (object new_sip 2 0 None true 0 []) (Err EOther) /\
  first_line_of (str "sip/2.0 200 OK") new_sip new_sip (Err EOther) /\
  first_line_of (str "BYE sip:bob@h;a= SIP/2.0") new_sip (object new_sip 0 3 None false 0 []) Panic.
Proof. repeat split; apply C152_first_line_exactly; vm_compute; reflexivity. Qed.
Example C152_numeral_example : numeral (str "+007") 7 /\ numeral (str "-1") (-1) /\ ~ numeral (str "9223372036854775808") 9223372036854775808.
Proof. split; [apply atoi_iff; reflexivity|]. split; [apply atoi_iff; reflexivity|]. intros [H _]. cbn in H. lia. Qed.
Print Assumptions C152_first_line_exactly.
Print Assumptions C152_lower_case_status.

(** ** C153: parsing into an object that was used before. The property: the result is the one a new object gives.
    It fails: an object that was a response stays one, and the headers of the earlier message come first: From, To,
    Contact, CSeq, Via and the length of the payload are those of the earlier message. *)
Theorem C153_response_stays_refuted : forall b s, s_isresp s = true -> s_isresp (fst (snd (sip_parse b s))) = true.
Proof.
  intros b s H. apply (parse_keep (fun s => s_isresp s = true)); auto.
  - intros l s' H'. apply first_line_headers, H'.
  - intros l s' H'. rewrite header_isresp. exact H'.
Qed.
Theorem C153_old_headers_refuted : forall b b' s x, sip_parse b s = (b', (x, Ok tt)) ->
  (forall name v vs, hvals (s_headers s) (to_lower name) = v :: vs -> to_lower name <> s_last s \/ vs <> [] -> get_first (s_headers x) name = v) /\
  (exists u, new_user (get_first (s_headers x) (str "from")) = Ok u /\ s_from x = Some u) /\
  (exists u, new_user (get_first (s_headers x) (str "to")) = Ok u /\ s_to x = Some u) /\
  (exists u, new_user (get_first (s_headers x) (str "contact")) = Ok u /\ s_contact x = Some u) /\
  (exists q, new_cseq (get_first (s_headers x) (str "cseq")) = Ok q /\ s_cseq x = Some q) /\
  (exists v, new_via (get_first (s_headers x) (str "via")) = Ok v /\ s_via x = Some v) /\
  (exists n, numeral (get_first (s_headers x) (str "content-length")) n).
Proof.
  intros b b' s x H. split.
  - intros name v vs H1 H2. assert (K : first_is (to_lower name) v (fst (snd (sip_parse b s)))).
    { apply (parse_keep (first_is (to_lower name) v)); auto.
      - intros l s' [ws [W1 W2]]. exists ws. destruct (first_line_headers l s') as [-> [-> _]]. auto.
      - intros l s' H'. now apply header_first.
      - exists vs. auto. }
    rewrite H in K. cbn [fst snd] in K. destruct K as [ws [W1 _]]. unfold get_first, hvals in *. destruct (hlook (s_headers x) (to_lower name)) as [l|]; [|discriminate]. rewrite W1. reflexivity.
  - unfold sip_parse in H. destruct (parse_lines _ b 0 0 [] s) as [b1 [s1 [[offset buffer]|e| |]]]; try discriminate.
    unfold fill_header, get_sip_contact, get_sip_cseq, get_sip_from, get_sip_to, get_sip_via in H.
    destruct (new_user (get_first (s_headers s1) (str "contact"))) as [c|e| |] eqn:E1; try discriminate.
    destruct (new_cseq (get_first (s_headers s1) (str "cseq"))) as [q|e| |] eqn:E2; try discriminate.
    destruct (new_user (get_first (s_headers s1) (str "from"))) as [f|e| |] eqn:E3; try discriminate.
    destruct (new_user (get_first (s_headers s1) (str "to"))) as [t|e| |] eqn:E4; try discriminate.
    destruct (new_via (get_first (s_headers s1) (str "via"))) as [v|e| |] eqn:E5; try discriminate.
    cbn [with_common s_headers] in H. unfold fill_body in H. destruct (get_content_length (s_headers s1)) as [n|e| |] eqn:E6; try discriminate.
    destruct (body_loop _ _ [] b1) as [b2 [body|e| |]]; try discriminate. injection H as <- <-. cbn.
    repeat (split; [eexists; split; [eassumption|reflexivity]|]). exists n. apply atoi_iff, E6.
Qed.
(** A request after a response, both from one connection into one object: the request's length of 3 is not looked at,
    the object still is a response from alice. *)
Definition ex_first : bytes := str "SIP/2.0 200 OK" ++ [13; 10] ++ str "From: <sip:alice@h>" ++ [13; 10] ++ str "Content-Length: 0" ++ [13; 10; 13; 10].
Definition ex_second : bytes := str "BYE sip:bob@h SIP/2.0" ++ [13; 10] ++ str "From: <sip:carol@h>" ++ [13; 10] ++ str "Content-Length: 3" ++ [13; 10; 13; 10] ++ str "bye".
Example C153_reuse_example :
  let '(_, (s, r)) := sip_parse (new_reader ex_first) new_sip in
  let '(x, r') := sip_parse_bytes ex_second s in
  let '(y, r'') := sip_parse_bytes ex_second new_sip in
  r = Ok tt /\ r' = Ok tt /\ r'' = Ok tt /\ s_isresp x = true /\ s_isresp y = false /\
  (exists u, s_from x = Some u /\ u_user u = str "alice") /\ (exists u, s_from y = Some u /\ u_user u = str "carol") /\
  s_payload x = [13; 10] /\ s_payload y = [13; 10] ++ str "bye".
Proof. vm_compute. repeat split; eauto. Qed.
(** After IsResponse = false and SetHeader(make(SIPHeader)) it holds, for every reader: same error, same bytes consumed,
    and after success the same message. *)
Theorem C153_fresh_headers_partial : forall b s, s_headers s = Some [] -> s_isresp s = false ->
  exists b' x y r, sip_parse b s = (b', (x, r)) /\ sip_parse b new_sip = (b', (y, r)) /\ (r = Ok tt -> same_seen x y).
Proof. intros b s H1 H2. apply parse_sim; [|assumption]. unfold sim0. cbn. auto. Qed.
Example C153_fresh_example :
  let s := fst (sip_parse_bytes ex_first new_sip) in
  let s := with_response false (s_code s) (s_status s) (with_headers (Some []) s) in
  s_headers s = Some [] /\ s_isresp s = false /\ s_code s = 200 /\ snd (sip_parse_bytes ex_second s) = Ok tt.
Proof. vm_compute. auto. Qed.
Print Assumptions C153_response_stays_refuted.
Print Assumptions C153_old_headers_refuted.
Print Assumptions C153_fresh_headers_partial.
