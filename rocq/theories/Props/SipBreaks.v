(** C195: line breaks in SIP header values. *)
From Coq Require Import String Permutation.
From Verif Require Import Base.Go Base.GoFacts Base.IO Base.Text Model.Sip Spec.Sip Spec.SipHops Spec.SipBreaks Proofs.Text Proofs.Sip Proofs.SipMsg
  Proofs.SipRead Proofs.SipText Proofs.SipParse Proofs.SipMore Proofs.SipHeaders Proofs.SipFields Proofs.SipBreaks Props.Sip Props.SipMsg Props.SipHops.
Import ListNotations. Local Open Scope list_scope. Local Open Scope Z_scope.

(** Whatever is received, over however many reads and with whatever outcome, no header value has a line feed in it. *)
Theorem C195_never_read : forall b s b' x r, no_breaks (s_headers s) -> sip_parse b s = (b', (x, r)) -> no_breaks (s_headers x).
Proof. exact sip_parse_breaks. Qed.

(** A value with a line break, a name, a colon and another value in it is written as two headers are: every text the
    one message may be written as is one the other may be written as. *)
Theorem C195_same_text : forall order s m n v n2 v2 h' h2, iteration order -> s_headers s = Some m -> NoDup (map fst m) ->
  to_lower n2 = n2 -> to_lower n <> n2 -> to_lower n <> str "content-length" -> n2 <> str "content-length" -> ~ In n2 (map fst m) ->
  forged (s_headers s) n v n2 v2 h' h2 ->
  exists order2, iteration order2 /\ forall t,
    (exists s1, sip_bytes order (with_headers h' s) = Ok (s1, t)) <-> (exists s1, sip_bytes order2 (with_headers h2 s) = Ok (s1, t)).
Proof. exact same_text. Qed.

(** So a value given for one header sets another one at the receiver: the header n2, which the sender's message does
    not have, arrives with the value v2, and n arrives with v only. *)
Theorem C195_smuggled_refuted : forall order s m n v n2 v2 h' h2, iteration order -> s_headers s = Some m -> NoDup (map fst m) ->
  to_lower n2 = n2 -> to_lower n <> n2 -> to_lower n <> str "content-length" -> n2 <> str "content-length" -> ~ In n2 (map fst m) ->
  forged (s_headers s) n v n2 v2 h' h2 -> plain_message (with_headers h2 s) ->
  get_header h' n2 = [] /\ get_header h' n = [with_header_in v n2 v2] /\
  exists s1 text, sip_bytes order (with_headers h' s) = Ok (s1, text) /\
    (forall blocks size, fits size (with_headers h2 s) -> 128 <= size -> concat blocks = text ->
       exists b x, sip_parse (reader blocks size) new_sip = (b, (x, Ok tt)) /\ same_message (with_headers h2 s) x /\
       get_header (s_headers x) n2 = [v2] /\ get_header (s_headers x) n = [v]).
Proof.
  intros order s m n v n2 v2 h' h2 Ho Em D L2 Nn Nc N2c N2 F P. destruct (same_text order s m n v n2 v2 h' h2 Ho Em D L2 Nn Nc N2c N2 F) as (order2 & I2 & T).
  assert (E' : h' = Some (mset (to_lower n) [with_header_in v n2 v2] m) /\ h2 = Some (mset n2 [v2] (mset (to_lower n) [v] m))).
  { destruct F as (F1 & h1 & F2 & F3). rewrite Em in F1, F2. unfold set_first in F1, F2. injection F1 as <-. injection F2 as <-. cbn [set_first] in F3. rewrite L2 in F3. injection F3 as <-. auto. }
  destruct E' as [E1 E2]. split; [|split].
  - rewrite E1. unfold get_header, hlook. rewrite L2, mget_mset_other by congruence. apply mget_none in N2. rewrite N2. reflexivity.
  - rewrite E1. unfold get_header, hlook. rewrite mget_mset_same. reflexivity.
  - destruct (sip_bytes_text order2 _ P I2) as (s2 & B2 & _). destruct (proj2 (T _) (ex_intro _ s2 B2)) as [s1 B1]. eexists s1, _. split; [exact B1|].
    intros blocks size Hf Hz Hc. rewrite <- app_nil_r in Hc.
    destruct (C116_message_round_trip order2 _ _ _ [] blocks size P I2 Hf Hz B2 Hc (fun _ => eq_refl)) as (b & x & X1 & X3). exists b, x. split; [exact X1|]. split; [exact X3|]. destruct X3 as [G _]. cbn [with_headers s_headers] in G. rewrite E2 in G.
    split; rewrite G.
    + rewrite L2. destruct (bytes_eqb n2 (str "content-length")) eqn:C; [apply bytes_eqb_eq in C; contradiction|]. unfold get_header, hlook. rewrite L2, mget_mset_same. reflexivity.
    + destruct (bytes_eqb (to_lower n) (str "content-length")) eqn:C; [apply bytes_eqb_eq in C; contradiction|]. unfold get_header, hlook. rewrite mget_mset_other, mget_mset_same by assumption. reflexivity.
Qed.

(** A subject with another header in it: a response with "subject" set to a value of two lines. *)
Definition ex_reply : sip := with_headers (Some [(str "from", [str "<sip:alice@a.com>"]); (str "to", [str "<sip:bob@b.com>"]); (str "contact", [str "<sip:bob@b.com>"]);
  (str "via", [str "SIP/2.0/UDP a.com:5060;branch=z9hG4bK1"]); (str "cseq", [str "1 INVITE"])]) (with_response true 200 [] (with_version 2 new_sip)).
Example C195_example : exists m h' h2 s1 text x,
  s_headers ex_reply = Some m /\ NoDup (map fst m) /\ forged (s_headers ex_reply) (str "Subject") (str "hello") (str "expires") (str "0") h' h2 /\
  plain_message (with_headers h2 ex_reply) /\ no_breaks (s_headers new_sip) /\
  set_subject (s_headers ex_reply) (str "hello" ++ [13; 10] ++ str "expires: 0") = Ok h' /\
  sip_bytes (@rev _) (with_headers h' ex_reply) = Ok (s1, text) /\ sip_parse_bytes text new_sip = (x, Ok tt) /\
  get_header h' (str "expires") = [] /\ get_header (s_headers x) (str "Expires") = [str "0"] /\ get_header (s_headers x) (str "Subject") = [str "hello"].
Proof.
  do 6 eexists. split; [reflexivity|]. split; [|split; [|split; [|split; [|split; [|split; [|split; [|split; [|split]]]]]]]].
  2: { split; [vm_compute; reflexivity|]. eexists. split; [vm_compute; reflexivity|vm_compute; reflexivity]. }
  - repeat constructor; cbn; intuition discriminate.
  - split; [|split; [|split]].
    + vm_compute. split; discriminate.
    + eexists. split; [reflexivity|]. split; [plain_chars|]. repeat apply Forall_cons; try apply Forall_nil; (split; [unfold lower_name; cbn [fst]; plain_chars|]); cbn [snd]; eexists; (split; [reflexivity|]); (apply ex_one_line; [plain_chars|discriminate|discriminate]).
    + split; [|eexists; vm_compute; reflexivity]. intros n [<-|[<-|[<-|[]]]]; eexists; vm_compute; reflexivity.
    + vm_compute. discriminate.
  - intros n v. cbn. intros [].
  - vm_compute; reflexivity.
  - vm_compute; reflexivity.
  - vm_compute; reflexivity.
  - vm_compute; reflexivity.
  - vm_compute; reflexivity.
  - vm_compute; reflexivity.
Qed.
Print Assumptions C195_never_read.
Print Assumptions C195_same_text.
Print Assumptions C195_smuggled_refuted.
