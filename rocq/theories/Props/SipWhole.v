(** C156: what Parse does with every input, in blocks of any sizes, on an object without headers (a new one, for example). *)
From Coq Require Import String.
From Verif Require Import Base.Go Base.GoFacts Base.IO Base.Text Model.Sip Spec.Sip Spec.SipLine Spec.SipAddr Spec.SipWhole Proofs.SipMore Proofs.SipWhole.
Import ListNotations. Local Open Scope list_scope. Local Open Scope Z_scope.

Section C156.
Context (blocks : list bytes) (size : Z) (s : sip) (Hsize : 0 < size) (Hs : s_headers s = Some []).
(** The object: its first line, fields, contents and payload. The payload starts with the empty line (C92), and is as long as
    asked or longer, unless the input ends before. *)
Theorem C156_object : forall ls used tail eol rest y fs n,
  begins size (concat blocks) ls used tail -> ends_here size tail eol rest -> lines_read s ls y fs -> typed fs -> numeral (first_value fs (str "content-length")) n ->
  exists b x d, sip_parse (reader blocks size) s = (b, (x, Ok tt)) /\ message_of y fs used (eol ++ d) x /\
    rest = d ++ bf_rest b /\ (n <= len eol -> d = []) /\ (bf_rest b = [] \/ n <= len eol + len d).
Proof. intros ls used tail eol rest y fs n. exact (whole_ok blocks size s Hsize Hs ls used tail eol rest y fs n). Qed.
(** It is accepted just in this case. *)
Theorem C156_accepted : (exists b x, sip_parse (reader blocks size) s = (b, (x, Ok tt))) <->
  exists ls used tail eol rest y fs n,
    begins size (concat blocks) ls used tail /\ ends_here size tail eol rest /\ lines_read s ls y fs /\ typed fs /\ numeral (first_value fs (str "content-length")) n.
Proof.
  split.
  - intros [b [x H]]. destruct (whole_cases blocks size s Hsize Hs) as [E|[P|K]]; [|..|exact K].
    + destruct (whole_err_parse blocks size s Hsize Hs E) as [b' [x' [e E']]]. congruence.
    + destruct (whole_panic_parse blocks size s Hsize Hs P) as [b' [x' E']]. congruence.
  - intros (ls & used & tail & eol & rest & y & fs & n & H1 & H2 & H3 & H4 & H5). destruct (C156_object _ _ _ _ _ _ _ _ H1 H2 H3 H4 H5) as [b [x [d [H _]]]]. eauto.
Qed.
(** It panics when the request URI does, when a continuation line comes before all header fields, and when From, To, Contact or
    Via has a parameter that ends at its equals sign. *)
Theorem C156_panics : (exists b x, sip_parse (reader blocks size) s = (b, (x, Panic))) <->
  (exists first used tail x, begins size (concat blocks) [first] used tail /\ first_line_of first s x Panic) \/
  (exists first hs l used tail y, begins size (concat blocks) (first :: hs ++ [l]) used tail /\ first_line_of first s y (Ok tt) /\ continuation l /\ ~ Exists header_line hs) \/
  (exists ls used tail eol rest y fs, begins size (concat blocks) ls used tail /\ ends_here size tail eol rest /\ lines_read s ls y fs /\ ~ typed fs).
Proof.
  split; [|exact (whole_panic_parse blocks size s Hsize Hs)]. intros [b [x H]]. destruct (whole_cases blocks size s Hsize Hs) as [E|[P|K]]; [|exact P|].
  - destruct (whole_err_parse blocks size s Hsize Hs E) as [b' [x' [e E']]]. congruence.
  - destruct (proj2 C156_accepted K) as [b' [x' E']]. congruence.
Qed.
(** It is refused for its first line, for a line longer than the buffer, and for a Content-Length that is none. *)
Theorem C156_refused : (exists b x e, sip_parse (reader blocks size) s = (b, (x, Err e))) <->
  (exists first used tail x e, begins size (concat blocks) [first] used tail /\ first_line_of first s x (Err e)) \/
  (exists ls used tail y fs, begins size (concat blocks) ls used tail /\ too_long size tail /\ lines_read s ls y fs) \/
  (exists ls used tail eol rest y fs, begins size (concat blocks) ls used tail /\ ends_here size tail eol rest /\ lines_read s ls y fs /\ typed fs /\
     forall n, ~ numeral (first_value fs (str "content-length")) n).
Proof.
  split; [|exact (whole_err_parse blocks size s Hsize Hs)]. intros [b [x [e H]]]. destruct (whole_cases blocks size s Hsize Hs) as [E|[P|K]]; [exact E|..].
  - destruct (whole_panic_parse blocks size s Hsize Hs P) as [b' [x' E']]. congruence.
  - destruct (proj2 C156_accepted K) as [b' [x' E']]. congruence.
Qed.
(** There is no other outcome. *)
Theorem C156_total : (exists b x, sip_parse (reader blocks size) s = (b, (x, Ok tt))) \/ (exists b x e, sip_parse (reader blocks size) s = (b, (x, Err e))) \/
  (exists b x, sip_parse (reader blocks size) s = (b, (x, Panic))).
Proof.
  destruct (whole_cases blocks size s Hsize Hs) as [E|[P|K]]; [right; left; now apply C156_refused|right; right; now apply C156_panics|left; now apply C156_accepted].
Qed.
End C156.
(** The fields are determined by the lines. *)
Theorem C156_fields_unique : forall hs fs gs, fields hs fs -> fields hs gs -> forall k, values fs k = values gs k.
Proof.
  intros hs fs gs F G k. destruct (fields_feed hs fs new_sip eq_refl F) as [x [E [m [l [-> [M _]]]]]]. destruct (fields_feed hs gs new_sip eq_refl G) as [x' [E' [m' [l' [-> [M' _]]]]]].
  rewrite E in E'. injection E' as -> ->. specialize (M k). rewrite M' in M. destruct (values fs k), (values gs k); congruence.
Qed.

Definition message : list bytes :=
  [str "INVITE sip:bob@h SIP/2.0" ++ [10]; str "via: SIP/2.0/UDP h"; [13; 10] ++ str "Subject: a" ++ [13; 10]; str "  b" ++ [10] ++ str "Content-Length: 5" ++ [10; 13; 10]; str "hello"; str "more"].
Example C156_example : exists b x, sip_parse (reader message 24) new_sip = (b, (x, Err EOther)) /\
  exists b x, sip_parse (reader message 25) new_sip = (b, (x, Ok tt)) /\ get_header (s_headers x) (str "SUBJECT") = [str "a b"] /\ s_payload x = [13; 10] ++ str "hello" /\ bf_rest b = str "more".
Proof. do 2 eexists. split; [vm_compute; reflexivity|]. do 2 eexists. split; [vm_compute; reflexivity|]. repeat split. Qed.
Example C156_example_accepted : exists ls used tail eol rest y fs n,
  begins 25 (concat message) ls used tail /\ ends_here 25 tail eol rest /\ lines_read new_sip ls y fs /\ typed fs /\ numeral (first_value fs (str "content-length")) n.
Proof. apply C156_accepted; [lia|reflexivity|]. destruct C156_example as [_ [_ [_ [b [x [E _]]]]]]. eauto. Qed.
Example C156_panic_example : exists first hs l used tail y, begins 4096 (with_crlf [str "ACK sip:a@b SIP/2.0"; str "nothing"; str " more"]) (first :: hs ++ [l]) used tail /\
  first_line_of first new_sip y (Ok tt) /\ continuation l /\ ~ Exists header_line hs.
Proof.
  exists (str "ACK sip:a@b SIP/2.0"), [str "nothing"], (str " more"), (with_crlf [str "ACK sip:a@b SIP/2.0"; str "nothing"; str " more"]), [].
  eexists. split; [|split; [apply Props.SipLine.C152_first_line_exactly; vm_compute; reflexivity|split; [exists (str "more"); left; reflexivity|]]].
  - assert (NL : forall l rest, without [10] l -> len l < 100 -> next_line 4096 (l ++ [13; 10] ++ rest) (l ++ [13; 10]) rest).
    { intros l rest W L. split; [now rewrite <- app_assoc|]. split; [intros C; apply app_eq_nil in C; destruct C; discriminate|]. left. split; [|rewrite len_app; change (len [13; 10]) with 2; lia].
      exists (l ++ [13]). split; [now rewrite <- app_assoc|]. apply Forall_app. split; [assumption|]. repeat constructor. cbn. lia. }
    assert (W : forall l, forallb (fun c => negb (c =? 10)) l = true -> without [10] l) by (intros l H'; apply Forall_forall; intros c Hc; rewrite forallb_forall in H'; specialize (H' c Hc); cbn; lia).
    change (with_crlf [str "ACK sip:a@b SIP/2.0"; str "nothing"; str " more"]) with (str "ACK sip:a@b SIP/2.0" ++ [13; 10] ++ with_crlf [str "nothing"; str " more"]) at 1.
    change (with_crlf [str "ACK sip:a@b SIP/2.0"; str "nothing"; str " more"]) with ((str "ACK sip:a@b SIP/2.0" ++ [13; 10]) ++ (str "nothing" ++ [13; 10]) ++ (str " more" ++ [13; 10]) ++ []).
    econstructor; [apply NL; [apply W; reflexivity|reflexivity]|apply bare_iff; reflexivity|discriminate|].
    change (with_crlf [str "nothing"; str " more"]) with (str "nothing" ++ [13; 10] ++ str " more" ++ [13; 10] ++ []).
    econstructor; [apply NL; [apply W; reflexivity|reflexivity]|apply bare_iff; reflexivity|discriminate|].
    econstructor; [apply NL; [apply W; reflexivity|reflexivity]|apply bare_iff; reflexivity|discriminate|]. constructor.
  - intros C. inversion C as [? ? [_ K]|? ? K]; subst; [|inversion K]. cbn in K. decompose [or] K; try lia; contradiction.
Qed.
Print Assumptions C156_object.
Print Assumptions C156_accepted.
Print Assumptions C156_panics.
Print Assumptions C156_refused.
Print Assumptions C156_total.
Print Assumptions C156_fields_unique.
