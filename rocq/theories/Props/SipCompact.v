(** C87, for whole messages: what Parse makes of compact names. *)
From Coq Require Import String.
From Verif Require Import Base.Go Base.GoFacts Base.IO Base.Text Model.Sip Spec.Sip Spec.SipLine Spec.SipAddr Spec.SipWhole Proofs.Text Proofs.Sip Proofs.SipWhole Props.SipAddr Props.SipWhole.
Import ListNotations. Local Open Scope list_scope. Local Open Scope Z_scope.

Lemma no_numeral n : ~ numeral [] n.
Proof. intros (_ & d & D & [[[H|H] _]|[H _]]); [|discriminate H..]. subst d. now destruct D. Qed.
Section C87.
Context (blocks : list bytes) (size : Z) (s : sip) (Hsize : 0 < size) (Hs : s_headers s = Some []).
(** In a message that was parsed every name finds exactly the values of the lines that have this very name, whatever stands under
    the compact one. *)
Theorem C87_received : forall b x, sip_parse (reader blocks size) s = (b, (x, Ok tt)) ->
  exists ls used tail eol rest y fs,
    begins size (concat blocks) ls used tail /\ ends_here size tail eol rest /\ lines_read s ls y fs /\
    (forall n, get_header (s_headers x) n = values fs (to_lower n)) /\ (forall n, get_first (s_headers x) n = first_value fs (to_lower n)).
Proof.
  intros b x E. destruct (proj1 (C156_accepted blocks size s Hsize Hs) (ex_intro _ b (ex_intro _ x E))) as (ls & used & tail & eol & rest & y & fs & n & H1 & H2 & H3 & H4 & H5).
  destruct (C156_object blocks size s Hsize Hs _ _ _ _ _ _ _ _ H1 H2 H3 H4 H5) as (b' & x' & d & E' & M & _). rewrite E' in E. injection E as -> ->.
  exists ls, used, tail, eol, rest, y, fs. do 3 (split; [assumption|]). destruct M as (_ & (m & -> & Hm) & _).
  split; intros k; unfold get_header, get_first, hlook, first_value; rewrite Hm; destruct (values fs (to_lower k)) as [|v vs]; reflexivity.
Qed.
(** So a message that gives its length as "l: 5" only is not accepted, whatever else is in it. *)
Theorem C87_compact_length_refuted : forall ls used tail eol rest y fs,
  begins size (concat blocks) ls used tail -> ends_here size tail eol rest -> lines_read s ls y fs -> values fs (str "content-length") = [] ->
  forall b x, sip_parse (reader blocks size) s <> (b, (x, Ok tt)).
Proof.
  intros ls used tail eol rest y fs H1 H2 H3 H4 b x E.
  assert (N : ~ typed fs).
  { intros T. destruct (proj2 (C156_refused blocks size s Hsize Hs)) as (b' & x' & e & E'); [|rewrite E in E'; discriminate E'].
    right. right. exists ls, used, tail, eol, rest, y, fs. do 4 (split; [assumption|]). intros n X. unfold first_value in X. rewrite H4 in X. cbn in X. revert X. apply no_numeral. }
  destruct (proj2 (C156_panics blocks size s Hsize Hs)) as (b' & x' & E'); [|rewrite E in E'; discriminate E'].
  right. right. exists ls, used, tail, eol, rest, y, fs. auto.
Qed.
(** And the address of a sender that is given as "f:" only is the empty one. *)
Theorem C87_compact_from_refuted : forall ls used tail eol rest y fs n,
  begins size (concat blocks) ls used tail -> ends_here size tail eol rest -> lines_read s ls y fs -> typed fs -> numeral (first_value fs (str "content-length")) n ->
  values fs (str "from") = [] ->
  exists b x u, sip_parse (reader blocks size) s = (b, (x, Ok tt)) /\ s_from x = Some u /\ u_user u = [] /\ u_host u = [] /\ u_src u = [].
Proof.
  intros ls used tail eol rest y fs n H1 H2 H3 H4 H5 H6.
  destruct (C156_object blocks size s Hsize Hs _ _ _ _ _ _ _ _ H1 H2 H3 H4 H5) as (b & x & d & E & (_ & _ & (u & Eu & U) & _) & _).
  exists b, x, u. split; [exact E|]. split; [exact Eu|]. unfold first_value in U. rewrite H6 in U. apply C154_address_exactly in U. cbn in U. injection U as <-. repeat split.
Qed.
End C87.
Print Assumptions C87_received.
Print Assumptions C87_compact_length_refuted.
Print Assumptions C87_compact_from_refuted.

(** A request with compact names: refused when the length is given as "l", and without a sender when it is not. *)
Definition ex_compact (n : bytes) : bytes :=
  str "BYE sip:b@h SIP/2.0" ++ [13; 10] ++ str "f: <sip:a@h>" ++ [13; 10] ++ n ++ str ": 0" ++ [13; 10; 13; 10].
Example C87_refused_message : exists b x e, sip_parse (reader [ex_compact (str "l")] 4096) new_sip = (b, (x, Err e)).
Proof. do 3 eexists. vm_compute. reflexivity. Qed.
Example C87_accepted_message : exists b x u, sip_parse (reader [ex_compact (str "Content-Length")] 4096) new_sip = (b, (x, Ok tt)) /\
  s_from x = Some u /\ u_user u = [] /\ get_header (s_headers x) (str "f") = [str "<sip:a@h>"].
Proof. do 3 eexists. repeat (split; [vm_compute; reflexivity|]). vm_compute. reflexivity. Qed.
