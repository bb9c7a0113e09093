(** C186: the payload ParseBytes gives, exactly. *)
From Coq Require Import String.
From Verif Require Import Base.Go Base.GoFacts Base.IO Base.Text Model.Sip Spec.Sip Spec.SipLine Spec.SipAddr Spec.SipWhole Spec.SipAgain Spec.SipBytes Proofs.SipMore Proofs.SipWhole Proofs.SipAgain Proofs.SipBytes Props.SipAgain.
Import ListNotations. Local Open Scope list_scope. Local Open Scope Z_scope.
Local Ltac Zify.zify_post_hook ::= Z.div_mod_to_equations.

(** The payload is the empty line, the bytes that were read ahead with the last lines, and as many blocks of 4096 bytes as
    Content-Length asks for, the empty line being counted. *)
Theorem C186_payload : forall text s ls used tail eol rest y t m n,
  begins 4096 text ls used tail -> ends_here 4096 tail eol rest -> lines_into s ls y t m -> readable t -> numeral (first_of t (str "content-length")) n ->
  exists x k, ahead text 0 rest k /\ sip_parse_bytes text s = (x, Ok tt) /\ object_of y t m used (eol ++ take rest (taken (n - len eol) k)) x.
Proof. exact bytes_ok. Qed.
(** How far is read ahead is determined by the text. *)
Theorem C186_unique : forall text rest k k', ahead text 0 rest k -> ahead text 0 rest k' -> k = k'.
Proof. intros text rest k k' H1 H2. exact (ahead_unique _ _ _ _ H1 _ H2). Qed.
(** It is accepted just in this case; the rest of the text has no part in it. *)
Theorem C186_accepted : forall text s, (exists x, sip_parse_bytes text s = (x, Ok tt)) <->
  exists ls used tail eol rest y t m n,
    begins 4096 text ls used tail /\ ends_here 4096 tail eol rest /\ lines_into s ls y t m /\ readable t /\ numeral (first_of t (str "content-length")) n.
Proof.
  intros text s. split.
  - intros [x H]. unfold sip_parse_bytes in H. destruct (sip_parse (new_reader text) s) as [b r] eqn:E. cbn [snd] in H. subst r. change (new_reader text) with (reader [text] 4096) in E.
    destruct (proj1 (C185_accepted [text] 4096 s ltac:(lia)) (ex_intro _ b (ex_intro _ x E))) as (ls & used & tail & eol & rest & y & t & m & n & H). exists ls, used, tail, eol, rest, y, t, m, n. cbn [concat] in H. rewrite app_nil_r in H. exact H.
  - intros (ls & used & tail & eol & rest & y & t & m & n & H1 & H2 & H3 & H4 & H5). destruct (C186_payload _ _ _ _ _ _ _ _ _ _ _ H1 H2 H3 H4 H5) as (x & k & _ & H & _). eauto.
Qed.
(** Texts of at most 4096 bytes: everything behind the lines is payload as soon as Content-Length is more than the empty line. *)
Theorem C186_short : forall text s ls used tail eol rest y t m n, len text <= 4096 ->
  begins 4096 text ls used tail -> ends_here 4096 tail eol rest -> lines_into s ls y t m -> readable t -> numeral (first_of t (str "content-length")) n ->
  exists x, sip_parse_bytes text s = (x, Ok tt) /\ object_of y t m used (eol ++ if n <=? len eol then [] else rest) x.
Proof.
  intros text s ls used tail eol rest y t m n HL H1 H2 H3 H4 H5. destruct (C186_payload _ _ _ _ _ _ _ _ _ _ _ H1 H2 H3 H4 H5) as (x & k & A & P & O). exists x. split; [exact P|].
  replace (if n <=? len eol then [] else rest) with (take rest (taken (n - len eol) k)); [exact O|]. unfold taken. destruct (n <=? len eol) eqn:E; [replace (n - len eol <=? 0) with true by lia; reflexivity|].
  replace (n - len eol <=? 0) with false by lia. apply take_all. destruct (ahead_short _ _ _ A HL) as [[-> ->]|Ek]; [|lia]. assert (len text = 0 \/ 0 < len text) by (pose proof (len_nonneg text); lia). lia.
Qed.
(** A payload has never 4096 bytes more than asked for, besides what was read ahead, which is at most 4096 bytes. *)
Theorem C186_bound : forall text rest k need, ahead text 0 rest k -> 0 <= k <= len rest /\ k <= 4096 /\ (0 < need -> need <= taken need k < Z.max k need + 4096) /\ (need <= 0 -> taken need k = 0).
Proof.
  intros text rest k need A. assert (K : 0 <= k <= len rest /\ k <= 4096).
  { pose proof (len_nonneg text).
    enough (K : forall r j r' j', ahead r j r' j' -> 0 <= j <= len r /\ j <= 4096 -> 0 <= j' <= len r' /\ j' <= 4096).
    - eapply K; [exact A|]. lia.
    - clear. induction 1 as [|r j l r' r1 j1 N A IH]; [auto|]. intros H. apply IH. destruct N as [-> [_ C]]. rewrite len_app in *. pose proof (len_nonneg r'). pose proof (len_nonneg l).
      destruct (len l <=? j) eqn:E; [lia|]. destruct C as [[_ C]|[_ [-> C]]]; [lia|]. change (len (@nil Z)) with 0 in *. lia. }
  destruct K as [K1 K2]. split; [exact K1|]. split; [exact K2|]. unfold taken. split; intros H; [replace (need <=? 0) with false by lia; lia|replace (need <=? 0) with true by lia; reflexivity].
Qed.

Definition head (n : bytes) : list bytes := [str "ACK sip:a@b SIP/2.0"; str "Content-Length: " ++ n; []].
Example C186_example : exists x, sip_parse_bytes (with_crlf (head (str "7")) ++ str "hello and more") new_sip = (x, Ok tt) /\ s_payload x = [13; 10] ++ str "hello and more".
Proof. eexists. split; [vm_compute; reflexivity|reflexivity]. Qed.
(** With 5000 bytes behind the lines, 2 asked for: what was read ahead is taken. *)
Example C186_example_long : exists x, sip_parse_bytes (with_crlf (head (str "4")) ++ repeat 65 5000) new_sip = (x, Ok tt) /\ len (s_payload x) = 4096 - len (with_crlf (head (str "4"))) + 2.
Proof. eexists. split; [vm_compute; reflexivity|vm_compute; reflexivity]. Qed.
Example C186_example_accepted : exists ls used tail eol rest y t m n,
  begins 4096 (with_crlf (head (str "7")) ++ str "hello and more") ls used tail /\ ends_here 4096 tail eol rest /\ lines_into new_sip ls y t m /\ readable t /\ numeral (first_of t (str "content-length")) n.
Proof. apply C186_accepted. destruct C186_example as [x [E _]]. eauto. Qed.
Print Assumptions C186_payload.
Print Assumptions C186_unique.
Print Assumptions C186_accepted.
Print Assumptions C186_short.
Print Assumptions C186_bound.
