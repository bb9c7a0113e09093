(** Property C200: a message made from headers that were set arrives with them. *)
From Coq Require Import String Permutation.
From Verif Require Import Base.Go Base.GoFacts Base.IO Base.Text Model.Sip Model.SipMaps Spec.Sip Spec.SipLine Spec.SipAddr Spec.SipWhole Spec.SipMany Spec.SipMaps Spec.SipBuilt
  Proofs.Text Proofs.Sip Proofs.SipText Proofs.SipFields Proofs.SipWhole Proofs.SipMany Proofs.SipMaps Proofs.SipBuilt Props.Sip Props.SipMsg Props.SipAddr Props.SipWhole Props.SipMany Props.SipMaps.
Import ListNotations. Local Open Scope list_scope. Local Open Scope Z_scope.

(** ** C200 *)
Section C200.
(** A program has filled the map of number i, and a message s is made from it. *)
Context (os : list map_op) (st : list header) (i : nat) (body : bytes) (s : sip) (order : hmap -> hmap).
Context (HL : legal os) (HO : Forall on_a_line os) (HR : map_run [] os = Ok st) (Hi : (i < made os)%nat) (HB : len body <= 9223372036854775807) (HM : made_with (map_of st i) body s) (Hord : iteration order).

Local Lemma the_map : exists m, map_of st i = Some m /\ text_headers m /\ (forall n o, last_value os i n o -> mget (to_lower n) m = option_map (fun v => [v]) o) /\ text_message s /\ s_headers s = Some m /\ s_payload s = body.
Proof.
  destruct (run_state os HL) as (s' & E & L & HI & HV). rewrite HR in E. injection E as <-. destruct (HI i ltac:(lia)) as (m & Em & _). exists m. split; [exact Em|].
  pose proof (run_text os st i m HO HR Em) as T. split; [exact T|]. split; [exact (HV i m Em)|]. exact (made_message _ _ _ _ HM Em T HB).
Qed.
(** Bytes has no error. *)
Theorem C200_written : exists s1 text, sip_bytes order s = Ok (s1, text).
Proof.
  destruct the_map as (m & _ & _ & _ & T & Eh & _). destruct (first_text_ok _ (text_plain s T)) as [_ [_ Hfl]]. change (first_line s = Ok (first_text s ++ [13; 10])) in Hfl.
  unfold sip_bytes. rewrite Hfl. cbn [bind]. cbv zeta. destruct (s_isresp s); cbn [with_request s_headers s_payload]; rewrite Eh; do 2 eexists; reflexivity.
Qed.
Context (s1 : sip) (text : bytes) (Hb : sip_bytes order s = Ok (s1, text)).

Local Lemma sent_map : exists m1, s_headers s1 = Some m1 /\ (forall k, ~ In (k, []) m1) /\ finished (order m1) /\
  (forall n o, last_value os i n o -> ~ same_name n (str "Content-Length") -> values (received (order m1)) (to_lower n) = match o with Some v => [trim_sp v] | None => [] end) /\
  values (received (order m1)) (str "content-length") = [itoa (len body)] /\
  forall k vs, In (k, vs) (order m1) -> exists v, vs = [v] /\ (k = str "content-length" /\ v = itoa (len body) \/ header_name k /\ last_value os i k (Some v)).
Proof.
  destruct the_map as (m & Em & Tm & HV & T & Eh & Ep). assert (X : exists m1, s_headers s1 = Some m1).
  { pose proof Hb as Hb'. unfold sip_bytes in Hb'. destruct (first_line s); cbn [bind] in Hb'; try discriminate. cbv zeta in Hb'.
    destruct (s_isresp s); cbn [with_request s_headers s_payload] in Hb'; rewrite Eh in Hb'; unfold set_content_length in Hb'; cbn [set_first bind] in Hb'; injection Hb' as <- _; eexists; reflexivity. }
  destruct X as [m1 E1]. exists m1. split; [exact E1|]. destruct (visited _ _ _ _ _ T Hord Hb E1) as (_ & Th & _ & K). rewrite Eh, Ep in K.
  assert (One : forall k vs, In (k, vs) (order m1) -> exists v, vs = [v] /\ (k = str "content-length" /\ v = itoa (len body) \/ header_name k /\ last_value os i k (Some v))).
  { intros k vs I. apply K in I. destruct (bytes_eqb k cl) eqn:E.
    - apply bytes_eqb_eq in E. subst. eexists. split; [reflexivity|]. left. split; reflexivity.
    - destruct Tm as [Nd F]. assert (Hk : lower_name k) by (rewrite Forall_forall in F; exact (proj1 (F _ I))). apply in_mget in I; [|exact Nd].
      destruct (C199_defined os i k) as (o & Ho & _). pose proof (HV _ _ Ho) as G. rewrite (lower_name_lower _ Hk), I in G. destruct o as [v|]; [|discriminate]. injection G as ->. exists v. split; [reflexivity|]. right. split; [exact (lower_is_name _ Hk)|exact Ho]. }
  assert (N : forall k, ~ In (k, []) m1).
  { intros k I. apply (Permutation_in _ (Hord m1)) in I. destruct (One _ _ I) as (v & X & _). discriminate X. }
  split; [exact N|]. destruct (C196_merged _ _ _ _ _ T Hord Hb E1 N) as [Fi V]. split; [exact Fi|].
  assert (G : forall k, mget k m1 = if bytes_eqb k cl then Some [itoa (len body)] else mget k m).
  { intros k. assert (Nd : NoDup (map fst m1)) by (destruct Th as [Nd _]; eapply Permutation_NoDup; [apply Permutation_map, Permutation_sym, Hord|exact Nd]).
    assert (KI : forall vs, In (k, vs) m1 <-> (if bytes_eqb k cl then vs = [itoa (len body)] else In (k, vs) m)).
    { intros vs. rewrite <- K. split; apply Permutation_in; [apply Hord|apply Permutation_sym, Hord]. }
    destruct (bytes_eqb k cl).
    - apply in_mget; [exact Nd|]. now apply KI.
    - destruct (mget k m) as [vs|] eqn:E; [apply in_mget; [exact Nd|]; apply KI, mget_in, E|].
      destruct (mget k m1) as [vs|] eqn:E'; [|reflexivity]. apply mget_in, KI in E'. apply in_mget in E'; [congruence|exact (proj1 Tm)]. }
  split; [|split; [|exact One]].
  - intros n o Ho Nc. rewrite V, E1. cbn [hlook]. rewrite G. destruct (bytes_eqb (to_lower n) cl) eqn:E.
    + exfalso. apply Nc. apply bytes_eqb_eq in E. unfold same_name. rewrite E. vm_compute. reflexivity.
    + rewrite (HV _ _ Ho). destruct o as [v|]; [|reflexivity]. cbn [option_map]. unfold one_value. cbn [flat_map]. now rewrite app_nil_r.
  - rewrite V, E1. cbn [hlook]. change (str "content-length") with cl. rewrite G, bytes_eqb_refl. unfold one_value. cbn [flat_map]. rewrite app_nil_r. f_equal.
    apply trim_sp_number, len_nonneg.
Qed.
Local Lemma read_addresses m1 :
  (forall n o, last_value os i n o -> ~ same_name n (str "Content-Length") -> values (received (order m1)) (to_lower n) = match o with Some v => [trim_sp v] | None => [] end) ->
  (typed (received (order m1)) <-> addresses_read os i).
Proof.
  intros V. assert (F : forall n o, In n [str "From"; str "To"; str "Contact"; str "Via"] -> last_value os i n o -> first_value (received (order m1)) (to_lower n) = match o with Some v => trim_sp v | None => [] end).
  { intros n o I Ho. unfold first_value. rewrite (V n o Ho); [destruct o; reflexivity|]. unfold same_name. destruct I as [<-|[<-|[<-|[<-|[]]]]]; intros X; vm_compute in X; discriminate X. }
  assert (LF : to_lower (str "From") = str "from") by (vm_compute; reflexivity). assert (LT : to_lower (str "To") = str "to") by (vm_compute; reflexivity).
  assert (LC : to_lower (str "Contact") = str "contact") by (vm_compute; reflexivity). assert (LV : to_lower (str "Via") = str "via") by (vm_compute; reflexivity).
  assert (U0 : exists u, user_of [] u) by (eexists; apply C154_address_exactly; vm_compute; reflexivity).
  assert (W0 : exists w, via_of [] w) by (eexists; apply C154_via_exactly; vm_compute; reflexivity).
  split.
  - intros [T1 T2]. split.
    + intros n v I Hv. assert (I' : In (to_lower n) [str "from"; str "to"; str "contact"]) by (destruct I as [<-|[<-|[<-|[]]]]; [rewrite LF|rewrite LT|rewrite LC]; cbn [In]; auto).
      specialize (T1 _ I'). rewrite (F n _ ltac:(cbn [In] in *; tauto) Hv) in T1. exact T1.
    + intros v Hv. rewrite <- LV, (F (str "Via") (Some v) ltac:(cbn [In]; tauto) Hv) in T2. exact T2.
  - intros [A1 A2].
    assert (G : forall n, In n [str "From"; str "To"; str "Contact"] -> exists u, user_of (first_value (received (order m1)) (to_lower n)) u).
    { intros n I. destruct (C199_defined os i n) as (o & Ho & _). rewrite (F n o ltac:(cbn [In] in *; tauto) Ho). destruct o as [v|]; [exact (A1 n v I Ho)|exact U0]. }
    split.
    + intros n [<-|[<-|[<-|[]]]]; [rewrite <- LF|rewrite <- LT|rewrite <- LC]; apply G; cbn [In]; auto.
    + destruct (C199_defined os i (str "Via")) as (o & Ho & _). rewrite <- LV, (F (str "Via") o ltac:(cbn [In]; tauto) Ho). destruct o as [v|]; [exact (A2 v Ho)|exact W0].
Qed.

(** Its text arrives in blocks of any sizes, and the reader's buffer can hold its lines. *)
Context (blocks : list bytes) (size : Z) (Hc : concat blocks = text) (Hf : fits_in size s os i body).
Local Lemma fit m1 : (forall k vs, In (k, vs) (order m1) -> exists v, vs = [v] /\ (k = str "content-length" /\ v = itoa (len body) \/ header_name k /\ last_value os i k (Some v))) -> lines_fit size s (order m1).
Proof.
  intros One. destruct Hf as (_ & F1 & F2 & F3). split; [exact F1|]. unfold sent_lines.
  assert (G : forall l, (forall k vs, In (k, vs) l -> exists v, vs = [v] /\ len (k ++ str ": " ++ v) + 2 <= size) -> Forall (fun t => len t + 2 <= size) (flat_map (fun f => (fst f ++ str ":" ++ fst (snd f)) :: map (fun u => str " " ++ u) (snd (snd f))) (sent None l))).
  { clear. induction l as [|[k vs] l IH]; intros H; [constructor|]. destruct (H k vs ltac:(now left)) as (v & -> & L). cbn [sent flat_map fst snd map app]. constructor; [exact L|]. apply IH. intros k' vs' I. apply H. now right. }
  apply G. intros k vs I. destruct (One k vs I) as (v & -> & [[-> ->]|[N L]]); exists v || eexists; (split; [reflexivity|]); [|exact (F3 _ _ N L)]. exact F2.
Qed.
(** It is accepted if and only if the addresses that were last set are read, and Parse panics otherwise. *)
Theorem C200_accepted : (exists b x, sip_parse (reader blocks size) new_sip = (b, (x, Ok tt))) <-> addresses_read os i.
Proof.
  destruct the_map as (m & _ & _ & _ & T & _ & _). destruct sent_map as (m1 & E1 & N & Fi & V & Vc & One). rewrite <- (read_addresses m1 V).
  rewrite (C196_accepted order s s1 m1 text blocks size T Hord Hb E1 (fit m1 One) (proj1 Hf) Hc (or_introl Fi)). rewrite Vc. split; [tauto|]. intros X. split; [exact X|discriminate].
Qed.
Theorem C200_panics : (exists b x, sip_parse (reader blocks size) new_sip = (b, (x, Panic))) <-> ~ addresses_read os i.
Proof.
  destruct the_map as (m & _ & _ & _ & T & _ & _). destruct sent_map as (m1 & E1 & N & Fi & V & Vc & One). rewrite <- (read_addresses m1 V).
  exact (C196_panics order s s1 m1 text blocks size T Hord Hb E1 (fit m1 One) (proj1 Hf) Hc (or_introl Fi)).
Qed.
(** The object has, under every name, the last value set, without spaces around it, and the length of the body under Content-Length;
    the typed fields say the addresses that were last set. *)
Theorem C200_received : addresses_read os i -> exists b x, sip_parse (reader blocks size) new_sip = (b, (x, Ok tt)) /\ same_first_line s x /\
  (forall n o, last_value os i n o -> ~ same_name n (str "Content-Length") -> get_header (s_headers x) n = match o with Some v => [trim_sp v] | None => [] end) /\
  (forall n, same_name n (str "Content-Length") -> get_header (s_headers x) n = [itoa (len body)]) /\
  (forall v, last_value os i (str "From") (Some v) -> exists u, s_from x = Some u /\ user_of (trim_sp v) u) /\
  (forall v, last_value os i (str "To") (Some v) -> exists u, s_to x = Some u /\ user_of (trim_sp v) u) /\
  (forall v, last_value os i (str "Contact") (Some v) -> exists u, s_contact x = Some u /\ user_of (trim_sp v) u) /\
  (forall v, last_value os i (str "CSeq") (Some v) -> exists q, s_cseq x = Some q /\ cseq_of (trim_sp v) q) /\
  (forall v, last_value os i (str "Via") (Some v) -> exists w, s_via x = Some w /\ via_of (trim_sp v) w) /\
  (body = [] -> s_payload x = []) /\
  (body <> [] -> exists d lost, s_payload x = [13; 10] ++ d /\ body = d ++ lost /\ len lost <= 2).
Proof.
  intros HA. destruct the_map as (m & _ & _ & _ & T & _ & Ep). destruct sent_map as (m1 & E1 & N & Fi & V & Vc & One).
  destruct (C196_object order s s1 m1 text blocks size T Hord Hb E1 (fit m1 One) (proj1 Hf) Hc (or_introl Fi)) as (b & x & P & S & G & (used & M) & B1 & B2);
    [apply (read_addresses m1 V), HA|rewrite Vc; discriminate|].
  exists b, x. split; [exact P|]. split; [exact S|]. rewrite Ep in B1, B2. destruct M as (_ & _ & MF & MT & MC & MQ & MV & _).
  assert (F : forall n v, ~ same_name n (str "Content-Length") -> last_value os i n (Some v) -> first_value (received (order m1)) (to_lower n) = trim_sp v).
  { intros n v Nn Hv. unfold first_value. rewrite (V n _ Hv Nn). reflexivity. }
  split; [intros n o Ho Nc; rewrite G; exact (V n o Ho Nc)|].
  split; [intros n Sn; rewrite G; unfold same_name in Sn; rewrite Sn; replace (to_lower (str "Content-Length")) with (str "content-length") by (vm_compute; reflexivity); exact Vc|].
  split; [|split; [|split; [|split; [|split]]]]; try (intros v Hv; eapply F in Hv; [|intros X; vm_compute in X; discriminate X]).
  - replace (to_lower (str "From")) with (str "from") in Hv by (vm_compute; reflexivity). rewrite Hv in MF. exact MF.
  - replace (to_lower (str "To")) with (str "to") in Hv by (vm_compute; reflexivity). rewrite Hv in MT. exact MT.
  - replace (to_lower (str "Contact")) with (str "contact") in Hv by (vm_compute; reflexivity). rewrite Hv in MC. exact MC.
  - replace (to_lower (str "CSeq")) with (str "cseq") in Hv by (vm_compute; reflexivity). rewrite Hv in MQ. exact MQ.
  - replace (to_lower (str "Via")) with (str "via") in Hv by (vm_compute; reflexivity). rewrite Hv in MV. exact MV.
  - split; assumption.
Qed.
End C200.
Print Assumptions C200_written.
Print Assumptions C200_accepted.
Print Assumptions C200_panics.
Print Assumptions C200_received.

(** A map is copied from another with From and Call-ID, and a response is made of it. *)
Example C200_example :
  let os := [New; New; Call 0 (SetFirstHeader (str "From") (str "<sip:a@b>")); Call 0 (SetCallID (str " 17 ")); Copy 1 0 [str "FROM"; str "Call-Id"]; Call 0 (SetCallID (str "18"))] in
  legal os /\ Forall on_a_line os /\ (1 < made os)%nat /\
  last_value os 1 (str "Call-ID") (Some (str " 17 ")) /\ addresses_read os 1 /\
  exists st, map_run [] os = Ok st /\ let s := make_response 200 (map_of st 1) (str "hello") in
    made_with (map_of st 1) (str "hello") s /\ fits_in 64 s os 1 (str "hello") /\
    exists s1 text, sip_bytes (fun m => m) s = Ok (s1, text) /\ exists x, sip_parse_bytes text new_sip = (x, Ok tt) /\ get_header (s_headers x) (str "call-ID") = [str "17"].
Proof.
  intros os. assert (HL : legal os).
  { apply (L_next [New; New; Call 0 (SetFirstHeader (str "From") (str "<sip:a@b>")); Call 0 (SetCallID (str " 17 ")); Copy 1 0 [str "FROM"; str "Call-Id"]]); [|cbn; lia].
    apply (L_next [New; New; Call 0 (SetFirstHeader (str "From") (str "<sip:a@b>")); Call 0 (SetCallID (str " 17 "))]); [|cbn; lia].
    apply (L_next [New; New; Call 0 (SetFirstHeader (str "From") (str "<sip:a@b>"))]); [|cbn; lia]. apply (L_next [New; New]); [|cbn; lia]. apply (L_next [New]); [|exact I]. apply (L_next []); [constructor|exact I]. }
  assert (HO : Forall on_a_line os).
  { assert (D : forall n, forallb (fun c => (33 <=? c) && (c <=? 126) && negb (c =? 58)) n = true -> n <> [] -> header_name n).
    { intros n F N. split; [exact N|]. apply Forall_forall. intros c I. rewrite forallb_forall in F. specialize (F c I). unfold graphic. lia. }
    assert (W : forall v, forallb (fun c => negb (c =? 13) && negb (c =? 10)) v = true -> without [13; 10] v).
    { intros v F. apply Forall_forall. intros c I. rewrite forallb_forall in F. specialize (F c I). cbn [In]. lia. }
    unfold os. repeat (apply Forall_cons; [cbn [on_a_line sets fst snd]; try exact I|]); try apply Forall_nil; repeat (apply Forall_cons); try apply Forall_nil; try split;
      first [apply D; [vm_compute; reflexivity|discriminate]|apply W; vm_compute; reflexivity]. }
  destruct (run_state os HL) as (st & HR & Lst & HI & HV). assert (Em : exists m, map_of st 1 = Some m /\ m = [(str "from", [str "<sip:a@b>"]); (str "call-id", [str " 17 "])]).
  { assert (E : map_run [] os = Ok st) by exact HR. vm_compute in E. injection E as <-. eexists. split; [reflexivity|]. vm_compute. reflexivity. }
  destruct Em as (m & Em & Ec). specialize (HV 1%nat m Em).
  assert (K : forall n v, last_value os 1 n (Some v) -> to_lower n = str "from" /\ v = str "<sip:a@b>" \/ to_lower n = str "call-id" /\ v = str " 17 ").
  { intros n v H. apply HV in H. cbn [option_map] in H. apply mget_in in H. rewrite Ec in H. destruct H as [H|[H|[]]]; injection H as H1 H2; [left|right]; split; symmetry; assumption. }
  split; [exact HL|]. split; [exact HO|]. split; [cbn; lia|]. split; [|split].
  - destruct (C199_defined os 1 (str "Call-ID")) as (o & Ho & _). pose proof (HV _ _ Ho) as G. rewrite Ec in G. vm_compute in G. destruct o as [v|]; [|discriminate G]. injection G as <-. exact Ho.
  - split.
    + intros n v In1 Hv. apply K in Hv as [[_ ->]|[X _]]; [eexists; apply C154_address_exactly; vm_compute; reflexivity|]. destruct In1 as [<-|[<-|[<-|[]]]]; vm_compute in X; discriminate X.
    + intros v Hv. apply K in Hv as [[X _]|[X _]]; vm_compute in X; discriminate X.
  - exists st. split; [exact HR|]. intros s. split; [constructor; lia|]. split.
    + split; [lia|]. split; [|split; [vm_compute; discriminate|]].
      * intros t E. unfold s in E. rewrite Em, Ec in E. apply (f_equal (fun r => match r with Ok y => len y | _ => 0 end)) in E. revert E. vm_compute. intros <-. discriminate.
      * intros n v Hn Hv. rewrite !len_app. rewrite <- (name_len n Hn). apply K in Hv as [[-> ->]|[-> ->]]; vm_compute; discriminate.
    + unfold s. rewrite Em, Ec. do 2 eexists. split; [vm_compute; reflexivity|]. eexists. split; vm_compute; reflexivity.
Qed.
