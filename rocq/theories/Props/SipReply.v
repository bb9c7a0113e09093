(** Property C189: the response made for a request carries what identifies the request (RFC 3261 8.2.6.2). *)
From Coq Require Import String Permutation.
From Verif Require Import Base.Go Base.GoFacts Base.IO Base.Text Model.Sip Spec.Sip Proofs.Text Proofs.Sip Proofs.SipMsg Proofs.SipRead Proofs.SipText Proofs.SipParse Proofs.SipMore Proofs.SipHeaders Proofs.SipFields Props.Sip Props.SipMsg Props.SipStream.
Import ListNotations. Local Open Scope list_scope. Local Open Scope Z_scope.
Local Ltac Zify.zify_post_hook ::= Z.div_mod_to_equations.

(** The headers a response takes from its request. *)
Definition identity : list bytes := [str "Via"; str "From"; str "To"; str "Call-ID"; str "CSeq"].

(** What a successful Parse has stored in the typed fields. *)
Lemma parse_fills b s b' q : sip_parse b s = (b', (q, Ok tt)) ->
  exists f t c sq v, get_sip_from (s_headers q) = Ok f /\ get_sip_to (s_headers q) = Ok t /\ get_sip_contact (s_headers q) = Ok c /\ get_sip_cseq (s_headers q) = Ok sq /\ get_sip_via (s_headers q) = Ok v /\
    s_from q = Some f /\ s_to q = Some t /\ s_contact q = Some c /\ s_cseq q = Some sq /\ s_via q = Some v.
Proof.
  unfold sip_parse. destruct (parse_lines _ b 0 0 [] s) as [b1 [s1 [[offset buffer]| | |]]]; try discriminate. unfold fill_header.
  destruct (get_sip_contact (s_headers s1)) as [c| | |] eqn:E1; try discriminate. destruct (get_sip_cseq (s_headers s1)) as [sq| | |] eqn:E2; try discriminate.
  destruct (get_sip_from (s_headers s1)) as [f| | |] eqn:E3; try discriminate. destruct (get_sip_to (s_headers s1)) as [t| | |] eqn:E4; try discriminate. destruct (get_sip_via (s_headers s1)) as [v| | |] eqn:E5; try discriminate.
  destruct (fill_body _ _ b1) as [b2 [body| | |]]; try discriminate. intros E. injection E as <- <-. exists f, t, c, sq, v. cbn. auto 12.
Qed.
Lemma mset_forall {A} (P : bytes * A -> Prop) k v m : P (k, v) -> Forall P m -> Forall P (mset k v m).
Proof. intros Hv Hm. induction Hm as [|[k' v'] m H Hm IH]; cbn [mset]; [repeat constructor; exact Hv|]. destruct (bytes_eqb k k'); constructor; auto. Qed.
Lemma copied_plain names : forall m src m', copy_from (Some m) src names = Ok (Some m') -> plain_headers m -> Forall (fun n => lower_name (to_lower n) /\ one_line (get_first src n)) names -> plain_headers m'.
Proof.
  induction names as [|n names IH]; intros m src m' E HM HN; cbn [copy_from set_first bind] in E; [injection E as <-; exact HM|]. inversion HN as [|? ? [H1 H2] H3]; subst. apply (IH _ _ _ E); [|exact H3].
  destruct HM as [M1 M2]. split; [apply mset_nodup; exact M1|]. apply mset_forall; [|exact M2]. split; [exact H1|]. exists (get_first src n). auto.
Qed.
Lemma identity_lower : Forall (fun n => lower_name (to_lower n)) identity.
Proof. unfold identity. repeat (apply Forall_cons; [unfold lower_name, graphic; split; [discriminate|]; vm_compute to_lower; repeat constructor; try lia; intuition discriminate|]). constructor. Qed.
Lemma copied_first m src names n : copy_from (Some []) src names = Ok (Some m) -> get_first (Some m) n = if existsb (fun k => bytes_eqb (to_lower n) (to_lower k)) names then get_first src n else [].
Proof.
  intros E. destruct (C108_copy_from [] src names) as (m' & E' & H1 & H2). pose proof (eq_trans (eq_sym E) E') as Y. injection Y as <-. destruct (existsb _ names) eqn:X.
  - apply existsb_exists in X as (k & K1 & K2). apply bytes_eqb_eq in K2. specialize (H1 k K1). unfold get_first in *. rewrite K2. exact H1.
  - assert (N : ~ In (to_lower n) (map to_lower names)). { intros C. apply in_map_iff in C as (k & K1 & K2). rewrite <- not_true_iff_false in X. apply X. apply existsb_exists. exists k. split; [exact K2|]. rewrite K1. apply bytes_eqb_refl. }
    specialize (H2 _ N). unfold get_first, hlook. rewrite H2. reflexivity.
Qed.

(** ** C189 *)
(** A request that was parsed, however its text arrived and whatever the object held before; a response made from its
    headers; the sender of the request reads it, however it arrives: it finds the Via, From, To, Call-ID and CSeq it sent,
    as text and as typed fields. *)
Theorem C189_response_partial : forall b0 s0 b0' q h code body order s1 text blocks size,
  sip_parse b0 s0 = (b0', (q, Ok tt)) -> Forall (fun n => one_line (get_first (s_headers q) n)) identity ->
  copy_from (Some []) (s_headers q) identity = Ok h ->
  let r := make_response code h body in
  - 9223372036854775808 <= code <= 9223372036854775807 -> len body <= 9223372036854775807 ->
  iteration order -> fits size r -> 128 <= size -> sip_bytes order r = Ok (s1, text) -> concat blocks = text ->
  exists b x, sip_parse (reader blocks size) new_sip = (b, (x, Ok tt)) /\ s_isresp x = true /\ s_code x = code /\
    (forall n, In n identity -> get_header (s_headers x) n = [get_first (s_headers q) n]) /\
    s_via x = s_via q /\ s_from x = s_from q /\ s_to x = s_to q /\ s_cseq x = s_cseq q.
Proof.
  intros b0 s0 b0' q h code body order s1 text blocks size EQ HV EC r Hc Hb Ho Hf Hz ET EB.
  destruct (parse_fills _ _ _ _ EQ) as (f & t & c & sq & v & F1 & F2 & F3 & F4 & F5 & G1 & G2 & G3 & G4 & G5).
  destruct (copy_from_some identity [] (s_headers q)) as [m Em]. pose proof (eq_trans (eq_sym Em) EC) as Y. injection Y as <-.
  assert (HP : plain_headers m). { apply (copied_plain identity [] (s_headers q) m Em); [split; constructor|]. pose proof identity_lower as IL. rewrite Forall_forall in *. intros n Hn. auto. }
  assert (HA : addresses_ok (Some m)).
  { split.
    - intros n [<-|[<-|[<-|[]]]]; rewrite (copied_first _ _ _ _ Em).
      + exists (match new_user [] with Ok u => u | _ => mkUser [] [] [] [] [] [] [] end). vm_compute. reflexivity.
      + exists f. exact F1.
      + exists t. exact F2.
    - rewrite (copied_first _ _ _ _ Em). exists v. exact F5. }
  destruct (C117_make_response code m body order s1 text blocks size Hc HP HA Hb Ho Hf Hz ET EB) as (b & x & P1 & P2 & P3 & _ & _ & P5). exists b, x. split; [exact P1|]. split; [exact P2|]. split; [exact P3|].
  assert (HG : forall n, In n identity -> get_header (s_headers x) n = [get_first (s_headers q) n]).
  { intros n Hn. rewrite P5. 2: { clear - Hn. intros C. repeat (destruct Hn as [<-|Hn]; [vm_compute in C; discriminate C|]). elim Hn. }
    pose proof (copied_first _ _ _ n Em) as X. assert (XE : existsb (fun k => bytes_eqb (to_lower n) (to_lower k)) identity = true) by (apply existsb_exists; exists n; split; [exact Hn|apply bytes_eqb_refl]). rewrite XE in X. rewrite <- X.
    assert (IM : exists w, mget (to_lower n) m = Some [w]).
    { clear - Em HP Hn. assert (K : In (to_lower n) (map fst m)).
      { clear HP. assert (G : forall names m0 src m1, copy_from (Some m0) src names = Ok (Some m1) -> In (to_lower n) (map fst m0) \/ In n names -> In (to_lower n) (map fst m1)).
        { clear. induction names as [|k names IH]; intros m0 src m1 E H; cbn [copy_from set_first bind] in E; [injection E as <-; destruct H as [H|[]]; exact H|]. apply (IH _ _ _ E). destruct H as [H|[->|H]]; [left; apply mset_keys; auto|left; apply mset_keys; auto|right; exact H]. }
        exact (G _ _ _ _ Em (or_intror Hn)). }
      destruct (mget (to_lower n) m) as [l|] eqn:EG.
      - destruct HP as [_ HP]. rewrite Forall_forall in HP. pose proof (mget_in _ _ _ EG) as HI. destruct (HP _ HI) as [_ (w & W1 & _)]. cbn [snd] in W1. subst l. exists w. reflexivity.
      - exfalso. apply mget_none in EG. contradiction. }
    destruct IM as (w & W). unfold get_header, get_first, hlook. rewrite W. reflexivity. }
  split; [exact HG|].
  assert (HF : forall n, In n identity -> get_first (s_headers x) n = get_first (s_headers q) n).
  { intros n Hn. specialize (HG n Hn). unfold get_header in HG. unfold get_first at 1. destruct (hlook (s_headers x) (to_lower n)) as [[|y l]|]; [rewrite HG; reflexivity|injection HG as -> _; reflexivity|discriminate]. }
  destruct (parse_fills _ _ _ _ P1) as (f' & t' & c' & sq' & v' & F1' & F2' & F3' & F4' & F5' & G1' & G2' & G3' & G4' & G5').
  unfold get_sip_from, get_sip_to, get_sip_cseq, get_sip_via in *.
  change (get_first (s_headers x) (str "via")) with (get_first (s_headers x) (str "Via")) in F5'. change (get_first (s_headers q) (str "via")) with (get_first (s_headers q) (str "Via")) in F5. rewrite HF in F5' by (cbn; tauto).
  change (get_first (s_headers x) (str "from")) with (get_first (s_headers x) (str "From")) in F1'. change (get_first (s_headers q) (str "from")) with (get_first (s_headers q) (str "From")) in F1. rewrite HF in F1' by (cbn; tauto).
  change (get_first (s_headers x) (str "to")) with (get_first (s_headers x) (str "To")) in F2'. change (get_first (s_headers q) (str "to")) with (get_first (s_headers q) (str "To")) in F2. rewrite HF in F2' by (cbn; tauto).
  change (get_first (s_headers x) (str "cseq")) with (get_first (s_headers x) (str "CSeq")) in F4'. change (get_first (s_headers q) (str "cseq")) with (get_first (s_headers q) (str "CSeq")) in F4. rewrite HF in F4' by (cbn; tauto).
  repeat split; congruence.
Qed.
Print Assumptions C189_response_partial.
(** RFC 3261 wants all Via values in the response, in order. Only the first is copied, whatever the others are: a response
    can not find its way back through a proxy. *)
Theorem C189_two_vias_refuted : forall q v1 v2 vs h, get_header (s_headers q) (str "Via") = v1 :: v2 :: vs ->
  copy_from (Some []) (s_headers q) identity = Ok h -> get_header h (str "Via") = [v1].
Proof.
  intros q v1 v2 vs h EV EC. assert (G : get_first (s_headers q) (str "Via") = v1).
  { unfold get_header in EV. unfold get_first. destruct (hlook (s_headers q) (to_lower (str "Via"))) as [[|y l]|]; [rewrite EV; reflexivity|injection EV as -> _; reflexivity|discriminate]. }
  unfold identity in EC. cbn [copy_from set_first bind] in EC. rewrite G in EC. injection EC as <-. vm_compute. reflexivity.
Qed.
Print Assumptions C189_two_vias_refuted.
Definition crlf (l : list bytes) : bytes := flat_map (fun s => s ++ [13; 10]) l.
Definition ex_request : bytes := crlf [str "OPTIONS sip:a@b SIP/2.0"; str "v: x"; str "Via: SIP/2.0/UDP one;branch=z9"; str "Via: SIP/2.0/UDP two"; str "From: <sip:a@b>;tag=1"; str "To: <sip:c@d>"; str "Call-ID: 77"; str "CSeq: 1 OPTIONS"; str "Content-Length: 0"; []].
Definition ex_reply (text : bytes) : res (list (list bytes * list bytes)) :=
  match sip_parse (reader [text] 4096) new_sip with
  | (_, (q, Ok _)) =>
      let* h := copy_from (Some []) (s_headers q) identity in
      let* st := sip_bytes (fun m => m) (make_response 200 h (str "hello")) in
      match sip_parse (reader [snd st] 4096) new_sip with
      | (_, (x, Ok _)) => Ok (map (fun n => (get_header (s_headers q) n, get_header (s_headers x) n)) identity)
      | _ => Panic
      end
  | _ => Panic
  end.
Example C189_two_vias : ex_reply ex_request = Ok
  [([str "SIP/2.0/UDP one;branch=z9"; str "SIP/2.0/UDP two"], [str "SIP/2.0/UDP one;branch=z9"]); ([str "<sip:a@b>;tag=1"], [str "<sip:a@b>;tag=1"]);
   ([str "<sip:c@d>"], [str "<sip:c@d>"]); ([str "77"], [str "77"]); ([str "1 OPTIONS"], [str "1 OPTIONS"])].
Proof. vm_compute. reflexivity. Qed.
(** A value that ends in a space, as a blank continuation line makes it, arrives without the space. *)
Theorem C189_trailing_space_refuted : exists text l, ex_reply text = Ok l /\ In ([str "77 "], [str "77"]) l.
Proof.
  exists (crlf [str "OPTIONS sip:a@b SIP/2.0"; str "Call-ID: 77"; str " "; str "Content-Length: 0"; []]). eexists. split; [vm_compute; reflexivity|]. cbn [In]. tauto.
Qed.
Print Assumptions C189_trailing_space_refuted.
(** The hypotheses of the theorem, on a request with one value for each name. *)
Definition ex_single : bytes := crlf [str "OPTIONS sip:a@b SIP/2.0"; str "Via: SIP/2.0/UDP one;branch=z9"; str "From: <sip:a@b>;tag=1"; str "To: <sip:c@d>"; str "Call-ID: 77"; str "CSeq: 1 OPTIONS"; str "Content-Length: 0"; []].
Example C189_example : exists b q h s1 text, sip_parse (reader [ex_single] 4096) new_sip = (b, (q, Ok tt)) /\ Forall (fun n => one_line (get_first (s_headers q) n)) identity /\
  copy_from (Some []) (s_headers q) identity = Ok h /\ fits 4096 (make_response 200 h (str "hello")) /\ sip_bytes (fun m => m) (make_response 200 h (str "hello")) = Ok (s1, text).
Proof.
  destruct (sip_parse (reader [ex_single] 4096) new_sip) as [b [q r]] eqn:E. vm_compute in E. injection E as <- <- <-. do 5 eexists. split; [reflexivity|]. split; [|split; [vm_compute; reflexivity|split; [|vm_compute; reflexivity]]].
  - assert (ONE : forall v, forallb (fun c => negb ((c =? 13) || (c =? 10))) v && negb (hd 0 v =? 32) && negb (last v 0 =? 32) = true -> one_line v).
    { intros v H. apply andb_prop in H as [H H3]. apply andb_prop in H as [H1 H2]. rewrite forallb_forall in H1. split; [|split].
      - unfold without. apply Forall_forall. intros c Hc X. specialize (H1 c Hc). cbn [In] in X. destruct X as [<-|[<-|[]]]; discriminate H1.
      - intros t ->. discriminate H2.
      - intros t ->. rewrite last_last in H3. discriminate H3. }
    repeat (apply Forall_cons; [apply ONE; vm_compute; reflexivity|]). constructor.
  - split.
    + intros l H. vm_compute in H. injection H as <-. unfold len; cbn [length]; lia.
    + intros k v m H HI. vm_compute in H. injection H as <-. cbn [In] in HI. repeat (destruct HI as [HI|HI]; [injection HI as <- <-; unfold len; cbn [length]; lia|]). elim HI.
Qed.
