(** C185: what Parse does with every input on an object with any history. *)
From Coq Require Import String.
From Verif Require Import Base.Go Base.GoFacts Base.IO Base.Text Model.Sip Spec.Sip Spec.SipLine Spec.SipAddr Spec.SipWhole Spec.SipAgain Proofs.SipMore Proofs.SipWhole Proofs.SipAgain.
Import ListNotations. Local Open Scope list_scope. Local Open Scope Z_scope.

Section C185.
Context (blocks : list bytes) (size : Z) (s : sip) (Hsize : 0 < size).
(** The object: its first line, what is stored under every name, the typed fields, contents and payload. *)
Theorem C185_object : forall ls used tail eol rest y t m n,
  begins size (concat blocks) ls used tail -> ends_here size tail eol rest -> lines_into s ls y t m -> readable t -> numeral (first_of t (str "content-length")) n ->
  exists b x d, sip_parse (reader blocks size) s = (b, (x, Ok tt)) /\ object_of y t m used (eol ++ d) x /\
    rest = d ++ bf_rest b /\ (n <= len eol -> d = []) /\ (bf_rest b = [] \/ n <= len eol + len d).
Proof. intros ls used tail eol rest y t m n. exact (again_ok blocks size s Hsize ls used tail eol rest y t m n). Qed.
(** It is accepted just in this case. *)
Theorem C185_accepted : (exists b x, sip_parse (reader blocks size) s = (b, (x, Ok tt))) <->
  exists ls used tail eol rest y t m n,
    begins size (concat blocks) ls used tail /\ ends_here size tail eol rest /\ lines_into s ls y t m /\ readable t /\ numeral (first_of t (str "content-length")) n.
Proof.
  split.
  - intros [b [x H]]. destruct (again_cases blocks size s Hsize) as [E|[P|K]]; [|..|exact K].
    + destruct (again_err_parse blocks size s Hsize E) as [b' [x' [e E']]]. congruence.
    + destruct (again_panic_parse blocks size s Hsize P) as [b' [x' E']]. congruence.
  - intros (ls & used & tail & eol & rest & y & t & m & n & H1 & H2 & H3 & H4 & H5). destruct (C185_object _ _ _ _ _ _ _ _ _ H1 H2 H3 H4 H5) as [b [x [d [H _]]]]. eauto.
Qed.
(** It panics when the request URI does; at a continuation line when the last name, of this message or an earlier one, has no
    value; at a header field when there is no map to store it in; and when From, To, Contact or Via, be they old or
    new, have a parameter that ends at its equals sign. *)
Theorem C185_panics : (exists b x, sip_parse (reader blocks size) s = (b, (x, Panic))) <->
  (exists first used tail x, begins size (concat blocks) [first] used tail /\ first_line_of first s x Panic) \/
  (exists first hs l used tail, begins size (concat blocks) (first :: hs ++ [l]) used tail /\
     exists y t n, first_line_of first s y (Ok tt) /\ into (no_map s) (stored s) (s_last s) hs t n /\
       (continuation l /\ under t n = [] \/ header_line l /\ no_map s)) \/
  (exists ls used tail eol rest y t m, begins size (concat blocks) ls used tail /\ ends_here size tail eol rest /\ lines_into s ls y t m /\ ~ readable t).
Proof.
  split; [|exact (again_panic_parse blocks size s Hsize)]. intros [b [x H]]. destruct (again_cases blocks size s Hsize) as [E|[P|K]]; [|exact P|].
  - destruct (again_err_parse blocks size s Hsize E) as [b' [x' [e E']]]. congruence.
  - destruct (proj2 C185_accepted K) as [b' [x' E']]. congruence.
Qed.
(** It is refused for its first line, for a line longer than the buffer, and for a Content-Length, old or new, that is none. *)
Theorem C185_refused : (exists b x e, sip_parse (reader blocks size) s = (b, (x, Err e))) <->
  (exists first used tail x e, begins size (concat blocks) [first] used tail /\ first_line_of first s x (Err e)) \/
  (exists ls used tail y t m, begins size (concat blocks) ls used tail /\ too_long size tail /\ lines_into s ls y t m) \/
  (exists ls used tail eol rest y t m, begins size (concat blocks) ls used tail /\ ends_here size tail eol rest /\ lines_into s ls y t m /\ readable t /\
     forall n, ~ numeral (first_of t (str "content-length")) n).
Proof.
  split; [|exact (again_err_parse blocks size s Hsize)]. intros [b [x [e H]]]. destruct (again_cases blocks size s Hsize) as [E|[P|K]]; [exact E|..].
  - destruct (again_panic_parse blocks size s Hsize P) as [b' [x' E']]. congruence.
  - destruct (proj2 C185_accepted K) as [b' [x' E']]. congruence.
Qed.
(** There is no other outcome. *)
Theorem C185_total : (exists b x, sip_parse (reader blocks size) s = (b, (x, Ok tt))) \/ (exists b x e, sip_parse (reader blocks size) s = (b, (x, Err e))) \/
  (exists b x, sip_parse (reader blocks size) s = (b, (x, Panic))).
Proof.
  destruct (again_cases blocks size s Hsize) as [E|[P|K]]; [right; left; now apply C185_refused|right; right; now apply C185_panics|left; now apply C185_accepted].
Qed.
(** Without a map for the headers nothing is accepted. *)
Theorem C185_no_map : no_map s -> forall b x, sip_parse (reader blocks size) s <> (b, (x, Ok tt)).
Proof.
  intros H b x E. destruct (proj1 C185_accepted (ex_intro _ b (ex_intro _ x E))) as (ls & used & tail & eol & rest & y & t & m & n & _ & _ & L & _ & N).
  assert (T : t (str "content-length") = None).
  { assert (S0 : forall k, stored s k = None) by (intros k; unfold stored; now rewrite H). destruct L as [[_ [_ [-> _]]]|[first [hs [_ [_ I]]]]]; [apply S0|].
    enough (G : forall k, t k = None) by apply G. clear N. induction I as [|ls' t n0 l a c m v I IH Hm|ls' t n0 l vs v I IH Hc Ht|ls' t n0 l I IH]; auto; [now elim Hm|rewrite IH in Ht; discriminate]. }
  unfold first_of in N. rewrite T in N. apply (Proofs.SipLine.atoi_iff [] n) in N. discriminate.
Qed.
End C185.
(** The table and the last name are determined by the lines. *)
Theorem C185_unique : forall s hs t n t' n', into (no_map s) (stored s) (s_last s) hs t n -> into (no_map s) (stored s) (s_last s) hs t' n' -> (forall k, t k = t' k) /\ n = n'.
Proof. exact into_unique. Qed.
(** The lines of a message which has a header field before its first continuation line, if any: what it has under a name is added
    behind what the object has. *)
Theorem C185_behind : forall s hs fs t n, ~ no_map s -> fields hs fs -> into (no_map s) (stored s) (s_last s) hs t n -> forall k, under t k = under (stored s) k ++ values fs k.
Proof.
  intros s hs fs t n M F I k. destruct (fields_into hs fs (no_map s) (stored s) (s_last s) M F) as [t' [n' [I' [V _]]]]. destruct (into_unique _ _ _ _ _ _ I I') as [E _]. unfold under at 1. rewrite E. apply V.
Qed.
(** Two messages read by one object, one after the other, leave what one message would with the header lines of both. *)
Theorem C185_both : forall s x hs1 hs2 t1 n1 t2 n2, into (no_map s) (stored s) (s_last s) hs1 t1 n1 ->
  (no_map x <-> no_map s) -> (forall k, stored x k = t1 k) -> s_last x = n1 -> into (no_map x) (stored x) (s_last x) hs2 t2 n2 ->
  exists t, (forall k, t2 k = t k) /\ into (no_map s) (stored s) (s_last s) (hs1 ++ hs2) t n2.
Proof.
  intros s x hs1 hs2 t1 n1 t2 n2 A Nx Sx <- B. destruct (into_ext _ _ _ _ _ _ _ Sx B) as [t [E I]]. exists t. split; [exact E|]. eapply into_app; [exact A|].
  clear - Nx I. induction I as [|ls u w l a b m v H IH Hm Hc El Ha Hn Hv|ls u w l vs v H IH Hc Ht|ls u w l H IH Hc Hw].
  - constructor.
  - eapply I_field; try eassumption. tauto.
  - eapply I_more; eassumption.
  - now apply I_other.
Qed.

Definition message1 : bytes := with_crlf [str "ACK sip:a@b SIP/2.0"; str "Subject: one"; str "Content-Length: 0"; str "Subject: two"; []].
Definition message2 : bytes := with_crlf [str "SIP/2.0 200 OK"; str " and"; str "subject: three"; str "l: 9"; []].
Example C185_example : exists b x b' x', sip_parse (reader [message1] 4096) new_sip = (b, (x, Ok tt)) /\ s_last x = str "subject" /\
  sip_parse (reader [message2] 4096) x = (b', (x', Ok tt)) /\ get_header (s_headers x') (str "SUBJECT") = [str "one"; str "two and"; str "three"] /\ s_isresp x' = true.
Proof. do 4 eexists. split; [vm_compute; reflexivity|]. split; [reflexivity|]. split; [vm_compute; reflexivity|]. split; reflexivity. Qed.
Example C185_example_accepted : exists x, s_last x = str "subject" /\ exists ls used tail eol rest y t m n,
    begins 4096 (concat [message2]) ls used tail /\ ends_here 4096 tail eol rest /\ lines_into x ls y t m /\ readable t /\ numeral (first_of t (str "content-length")) n.
Proof. destruct C185_example as [b [x [b' [x' [_ [L [E _]]]]]]]. exists x. split; [exact L|]. apply C185_accepted; [lia|eauto]. Qed.
(** The same message is a panic for a new object, and one without map panics at its first field. *)
Example C185_panic_example : (exists b x, sip_parse (reader [message2] 4096) new_sip = (b, (x, Panic))) /\
  (exists b x, sip_parse (reader [message1] 4096) (with_headers None new_sip) = (b, (x, Panic))) /\ no_map (with_headers None new_sip).
Proof. split; [do 2 eexists; vm_compute; reflexivity|]. split; [do 2 eexists; vm_compute; reflexivity|reflexivity]. Qed.
Print Assumptions C185_object.
Print Assumptions C185_accepted.
Print Assumptions C185_panics.
Print Assumptions C185_refused.
Print Assumptions C185_total.
Print Assumptions C185_no_map.
Print Assumptions C185_unique.
Print Assumptions C185_behind.
Print Assumptions C185_both.
