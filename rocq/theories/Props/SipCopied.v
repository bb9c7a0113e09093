(** Property C217: what a message carries of the one its headers are copied from, exactly. *)
From Coq Require Import String Permutation.
From Verif Require Import Base.Go Base.GoFacts Base.IO Base.Text Model.Sip Model.SipMaps Spec.Sip Spec.SipLine Spec.SipAddr Spec.SipWhole Spec.SipMany Spec.SipMaps Spec.SipBuilt Spec.SipBreaks Spec.SipCopied
  Proofs.Text Proofs.Sip Proofs.SipText Proofs.SipFields Proofs.SipWhole Proofs.SipMany Proofs.SipMaps Proofs.SipBuilt Proofs.SipUtf8 Proofs.SipTrim Props.Sip Props.SipMsg Props.SipAddr Props.SipWhole Props.SipMany Props.SipBreaks Props.SipReply.
Import ListNotations. Local Open Scope list_scope. Local Open Scope Z_scope.

Lemma first_lower h a b : to_lower a = to_lower b -> get_first h a = get_first h b.
Proof. intros E. unfold get_first. now rewrite E. Qed.
Lemma copied_look names : forall m src m', copy_from (Some m) src names = Ok (Some m') -> forall n, In n names -> mget (to_lower n) m' = Some [get_first src n].
Proof.
  induction names as [|a names IH]; intros m src m' E n I; [destruct I|]. cbn [copy_from set_first bind] in E. destruct (in_dec (list_eq_dec Z.eq_dec) (to_lower n) (map to_lower names)) as [J|J].
  - apply in_map_iff in J as (k & K1 & K2). rewrite <- K1, (IH _ _ _ E k K2). now rewrite (first_lower _ _ _ K1).
  - destruct I as [<-|I]; [|elim J; now apply in_map]. rewrite (copy_from_look _ _ _ _ (to_lower a) E); [apply mget_mset_same|]. apply Forall_forall. intros k K X. apply J. rewrite <- X. now apply in_map.
Qed.
Lemma copied_text names : forall m src m', copy_from (Some m) src names = Ok (Some m') -> text_headers m -> Forall (fun n => header_name n /\ without [13; 10] (get_first src n)) names -> text_headers m'.
Proof.
  induction names as [|a names IH]; intros m src m' E T F; cbn [copy_from set_first bind] in E; [injection E as <-; exact T|]. inversion F as [|? ? [F1 F2] F3]; subst. apply (IH _ _ _ E); [|exact F3]. now apply text_set.
Qed.
Lemma bare_trim v : trim_sp v = v <-> bare v.
Proof.
  rewrite <- spaces_iff. split.
  - intros (a & b & E & _ & _ & L & R). split; intros t ->.
    + exact (L 32 t eq_refl eq_refl).
    + exact (R 32 t eq_refl eq_refl).
  - intros [L R]. exists [], []. rewrite app_nil_r. split; [reflexivity|]. split; [constructor|]. split; [constructor|]. split; intros c u E ->; [exact (L u E)|exact (R u E)].
Qed.
Lemma first_hvals q n : ~ In 10 (get_first (s_headers q) n) \/ exists k, In (get_first (s_headers q) n) (hvals (s_headers q) k).
Proof.
  unfold get_first, hvals. destruct (hlook (s_headers q) (to_lower n)) as [[|v l]|] eqn:E; [|right; exists (to_lower n); rewrite E; now left|left; intros []].
  destruct (hlook (s_headers q) (compact_of (to_lower n))) as [[|v l]|] eqn:E'; [left; intros []|right; exists (compact_of (to_lower n)); rewrite E'; now left|left; intros []].
Qed.

(** ** C217 *)
Section C217.
(** A message q is read, from any reader and into any object that holds no line feed. The headers with these names are copied from it,
    and a message s is made with them: a response, or a request that goes on. *)
Context (b0 b0' : bufr) (s0 q : sip) (names : list bytes) (h : header) (body : bytes) (s : sip) (order : hmap -> hmap).
Context (HQ : sip_parse b0 s0 = (b0', (q, Ok tt))) (HB : no_breaks (s_headers s0)) (HN : Forall header_name names) (HL : Forall (fun n => ~ same_name n (str "Content-Length")) names).
Context (HR : Forall (fun n => ~ In 13 (value_in q n)) names) (HC : copy_from (Some []) (s_headers q) names = Ok h) (HM : made_with h body s) (Hb : len body <= 9223372036854775807) (Hord : iteration order).

Local Lemma the_map : exists m, h = Some m /\ text_headers m /\ (forall n, In n names -> mget (to_lower n) m = Some [value_in q n]) /\ (forall k, ~ In k (map to_lower names) -> mget k m = None) /\ text_message s /\ s_headers s = Some m /\ s_payload s = body.
Proof.
  destruct (copy_from_some names [] (s_headers q)) as (m & E). assert (Eh : h = Some m) by (pose proof (eq_trans (eq_sym HC) E) as Y; injection Y as Y; exact Y). exists m. split; [exact Eh|].
  assert (T : text_headers m).
  { apply (copied_text names [] (s_headers q) m E); [split; constructor|]. pose proof (C195_never_read _ _ _ _ _ HB HQ) as NB. apply Forall_forall. intros n I. rewrite Forall_forall in HN, HR. split; [exact (HN n I)|].
    apply Forall_forall. intros c Ic. cbn [In]. intros [<-|[<-|[]]]; [exact (HR n I Ic)|]. destruct (first_hvals q n) as [X|(k & X)]; [exact (X Ic)|exact (NB k _ X Ic)]. }
  split; [exact T|]. split; [exact (copied_look names [] (s_headers q) m E)|]. split; [|exact (made_message _ _ _ _ HM Eh T Hb)].
  intros k X. rewrite (copy_from_look _ _ _ _ k E); [reflexivity|]. apply Forall_forall. intros n I <-. apply X. now apply in_map.
Qed.
(** Bytes has no error. *)
Theorem C217_written : exists s1 text, sip_bytes order s = Ok (s1, text).
Proof.
  destruct the_map as (m & _ & _ & _ & _ & T & Eh & _). destruct (first_text_ok _ (text_plain s T)) as [_ [_ Hfl]]. change (first_line s = Ok (first_text s ++ [13; 10])) in Hfl.
  unfold sip_bytes. rewrite Hfl. cbn [bind]. cbv zeta. destruct (s_isresp s); cbn [with_request s_headers s_payload]; rewrite Eh; do 2 eexists; reflexivity.
Qed.
Context (s1 : sip) (text : bytes) (HT : sip_bytes order s = Ok (s1, text)) (blocks : list bytes) (size : Z) (Hc : concat blocks = text) (Hz : 2 <= size) (Hf : room_for size s q names body).

Local Lemma sent_map : exists m1, s_headers s1 = Some m1 /\ finished (order m1) /\ lines_fit size s (order m1) /\
  (forall n, In n names -> values (received (order m1)) (to_lower n) = [trim_sp (value_in q n)]) /\
  values (received (order m1)) (str "content-length") = [itoa (len body)] /\
  (forall k, ~ In k (map to_lower names) -> k <> str "content-length" -> values (received (order m1)) k = []).
Proof.
  destruct the_map as (m & Em & Tm & HV & HV0 & T & Eh & Ep). assert (X : exists m1, s_headers s1 = Some m1).
  { pose proof HT as Hb'. unfold sip_bytes in Hb'. destruct (first_line s); cbn [bind] in Hb'; try discriminate. cbv zeta in Hb'.
    destruct (s_isresp s); cbn [with_request s_headers s_payload] in Hb'; rewrite Eh in Hb'; unfold set_content_length in Hb'; cbn [set_first bind] in Hb'; injection Hb' as <- _; eexists; reflexivity. }
  destruct X as [m1 E1]. exists m1. split; [exact E1|]. destruct (visited _ _ _ _ _ T Hord HT E1) as (_ & Th & _ & K). rewrite Eh, Ep in K.
  assert (One : forall k vs, In (k, vs) (order m1) -> exists v, vs = [v] /\ (k = cl /\ v = itoa (len body) \/ exists n, In n names /\ k = to_lower n /\ v = value_in q n)).
  { intros k vs I. apply K in I. destruct (bytes_eqb k cl) eqn:E.
    - apply bytes_eqb_eq in E. subst. eexists. split; [reflexivity|]. left. split; reflexivity.
    - destruct Tm as [Nd _]. apply in_mget in I; [|exact Nd]. destruct (in_dec (list_eq_dec Z.eq_dec) k (map to_lower names)) as [J|J]; [|rewrite (HV0 k J) in I; discriminate I].
      apply in_map_iff in J as (n & <- & J). rewrite (HV n J) in I. injection I as <-. eexists. split; [reflexivity|]. right. exists n. auto. }
  assert (N : forall k, ~ In (k, []) m1).
  { intros k I. apply (Permutation_in _ (Hord m1)) in I. destruct (One _ _ I) as (v & X & _). discriminate X. }
  destruct (C196_merged _ _ _ _ _ T Hord HT E1 N) as [Fi V]. split; [exact Fi|]. split.
  { destruct Hf as (F1 & F2 & F3). split; [exact F1|]. unfold sent_lines.
    assert (G : forall l, (forall k vs, In (k, vs) l -> exists v, vs = [v] /\ len (k ++ str ": " ++ v) + 2 <= size) -> Forall (fun t => len t + 2 <= size) (flat_map (fun f => (fst f ++ str ":" ++ fst (snd f)) :: map (fun u => str " " ++ u) (snd (snd f))) (sent None l))).
    { clear. induction l as [|[k vs] l IH]; intros H; [constructor|]. destruct (H k vs ltac:(now left)) as (v & -> & L). cbn [sent flat_map fst snd map app]. constructor; [exact L|]. apply IH. intros k' vs' I. apply H. now right. }
    apply G. intros k vs I. destruct (One k vs I) as (v & -> & [[-> ->]|(n & J & -> & ->)]); eexists; (split; [reflexivity|]); [exact F2|]. rewrite Forall_forall in F3, HN. specialize (F3 n J). rewrite !len_app in *. rewrite (name_len n (HN n J)). exact F3. }
  assert (G : forall k, mget k m1 = if bytes_eqb k cl then Some [itoa (len body)] else mget k m).
  { intros k. assert (Nd : NoDup (map fst m1)) by (destruct Th as [Nd _]; eapply Permutation_NoDup; [apply Permutation_map, Permutation_sym, Hord|exact Nd]).
    assert (KI : forall vs, In (k, vs) m1 <-> (if bytes_eqb k cl then vs = [itoa (len body)] else In (k, vs) m)).
    { intros vs. rewrite <- K. split; apply Permutation_in; [apply Hord|apply Permutation_sym, Hord]. }
    destruct (bytes_eqb k cl).
    - apply in_mget; [exact Nd|]. now apply KI.
    - destruct (mget k m) as [vs|] eqn:E; [apply in_mget; [exact Nd|]; apply KI, mget_in, E|].
      destruct (mget k m1) as [vs|] eqn:E'; [|reflexivity]. apply mget_in, KI in E'. apply in_mget in E'; [congruence|exact (proj1 Tm)]. }
  assert (O : forall v, one_value v [] = trim_sp v) by (intros v; unfold one_value; cbn [flat_map]; apply app_nil_r).
  split; [|split].
  - intros n I. rewrite V, E1. cbn [hlook]. rewrite G. destruct (bytes_eqb (to_lower n) cl) eqn:E.
    + exfalso. rewrite Forall_forall in HL. apply (HL n I). apply bytes_eqb_eq in E. unfold same_name. rewrite E. vm_compute. reflexivity.
    + rewrite (HV n I). now rewrite O.
  - rewrite V, E1. cbn [hlook]. change (str "content-length") with cl. rewrite G, bytes_eqb_refl, O. f_equal. apply trim_sp_number, len_nonneg.
  - intros k J Nc. rewrite V, E1. cbn [hlook]. rewrite G. change (str "content-length") with cl in Nc. apply bytes_eqb_neq in Nc. now rewrite Nc, (HV0 k J).
Qed.

(** It is read back, however it arrives. Each name copied has its first value, without the spaces around it, and no other; names that
    were not copied have none. *)
Theorem C217_received : exists b x, sip_parse (reader blocks size) new_sip = (b, (x, Ok tt)) /\ same_first_line s x /\
  (forall n, In n names -> get_header (s_headers x) n = [trim_sp (value_in q n)]) /\
  (forall n, same_name n (str "Content-Length") -> get_header (s_headers x) n = [itoa (len body)]) /\
  (forall n, ~ same_name n (str "Content-Length") -> (forall k, In k names -> ~ same_name n k) -> get_header (s_headers x) n = []) /\
  (In (str "From") names -> exists u u', s_from q = Some u /\ s_from x = Some u' /\ same_user u u') /\
  (In (str "To") names -> exists u u', s_to q = Some u /\ s_to x = Some u' /\ same_user u u') /\
  (In (str "Contact") names -> exists u u', s_contact q = Some u /\ s_contact x = Some u' /\ same_user u u') /\
  (In (str "Via") names -> exists v v', s_via q = Some v /\ s_via x = Some v' /\ same_via v v') /\
  (In (str "CSeq") names -> exists c, s_cseq x = Some c /\ cseq_of (trim_sp (value_in q (str "CSeq"))) c).
Proof.
  destruct the_map as (m & _ & _ & _ & _ & T & _ & Ep). destruct sent_map as (m1 & E1 & Fi & Fit & V & Vc & V0).
  destruct (parse_fills _ _ _ _ HQ) as (f & t & c & sq & v & F1 & F2 & F3 & F4 & F5 & G1 & G2 & G3 & G4 & G5).
  unfold get_sip_from, get_sip_to, get_sip_contact, get_sip_via in *. apply C154_address_exactly, user_trim in F1, F2, F3. apply C154_via_exactly, via_trim in F5.
  assert (U0 : exists u, user_of [] u) by (eexists; apply C154_address_exactly; vm_compute; reflexivity).
  assert (W0 : exists w, via_of [] w) by (eexists; apply C154_via_exactly; vm_compute; reflexivity).
  assert (FV : forall n k, to_lower n = k -> to_lower k = k -> k <> str "content-length" -> first_value (received (order m1)) k = trim_sp (get_first (s_headers q) k) \/ first_value (received (order m1)) k = [] /\ ~ In n names).
  { intros n k L L' Nc. unfold first_value. destruct (in_dec (list_eq_dec Z.eq_dec) k (map to_lower names)) as [J|J].
    - left. apply in_map_iff in J as (a & A1 & A2). rewrite <- A1, (V a A2), A1. unfold value_in. rewrite (first_lower _ a k) by congruence. reflexivity.
    - right. rewrite (V0 k J Nc). split; [reflexivity|]. intros I. apply J. rewrite <- L. now apply in_map. }
  pose proof (FV (str "From") (str "from") ltac:(vm_compute; reflexivity) ltac:(vm_compute; reflexivity) ltac:(discriminate)) as FF.
  pose proof (FV (str "To") (str "to") ltac:(vm_compute; reflexivity) ltac:(vm_compute; reflexivity) ltac:(discriminate)) as FT.
  pose proof (FV (str "Contact") (str "contact") ltac:(vm_compute; reflexivity) ltac:(vm_compute; reflexivity) ltac:(discriminate)) as FC.
  pose proof (FV (str "Via") (str "via") ltac:(vm_compute; reflexivity) ltac:(vm_compute; reflexivity) ltac:(discriminate)) as FVia.
  assert (TY : typed (received (order m1))).
  { split.
    - intros n [<-|[<-|[<-|[]]]]; [destruct FF as [->|[-> _]]|destruct FT as [->|[-> _]]|destruct FC as [->|[-> _]]]; eauto.
    - destruct FVia as [->|[-> _]]; eauto. }
  destruct (C196_object order s s1 m1 text blocks size T Hord HT E1 Fit Hz Hc (or_introl Fi) TY ltac:(rewrite Vc; discriminate)) as (b & x & P & S & G & (used & M) & _).
  exists b, x. split; [exact P|]. split; [exact S|]. destruct M as (_ & _ & (uf & M1 & M1') & (ut & M2 & M2') & (uc & M3 & M3') & (cq & M4 & M4') & (vv & M5 & M5') & _).
  split; [intros n I; rewrite G; exact (V n I)|]. split; [intros n I; rewrite G, I; exact Vc|].
  split. { intros n Nc Nn. rewrite G. apply V0; [|intros X; apply Nc; unfold same_name; rewrite X; vm_compute; reflexivity]. intros J. apply in_map_iff in J as (a & A1 & A2). apply (Nn a A2). now symmetry. }
  assert (SU : forall text u u', user_of text u -> user_of text u' -> u = u') by (intros y u u' H H'; apply C154_address_exactly in H, H'; congruence).
  assert (SV : forall text u u', via_of text u -> via_of text u' -> u = u') by (intros y u u' H H'; apply C154_via_exactly in H, H'; congruence).
  split; [|split; [|split; [|split]]]; intros I.
  - destruct FF as [X|[_ X]]; [|contradiction]. rewrite X in M1'. pose proof (SU _ _ _ M1' F1) as ->. exists f. eexists. split; [exact G1|]. split; [exact M1|]. repeat split.
  - destruct FT as [X|[_ X]]; [|contradiction]. rewrite X in M2'. pose proof (SU _ _ _ M2' F2) as ->. exists t. eexists. split; [exact G2|]. split; [exact M2|]. repeat split.
  - destruct FC as [X|[_ X]]; [|contradiction]. rewrite X in M3'. pose proof (SU _ _ _ M3' F3) as ->. exists c. eexists. split; [exact G3|]. split; [exact M3|]. repeat split.
  - destruct FVia as [X|[_ X]]; [|contradiction]. rewrite X in M5'. pose proof (SV _ _ _ M5' F5) as ->. exists v. eexists. split; [exact G5|]. split; [exact M5|]. repeat split.
  - exists cq. split; [exact M4|]. unfold first_value in M4'. change (str "cseq") with (to_lower (str "CSeq")) in M4'. rewrite (V _ I) in M4'. exact M4'.
Qed.
(** So a value arrives as it was just if it has no space at either end; a second value never does. *)
Theorem C217_kept : exists b x, sip_parse (reader blocks size) new_sip = (b, (x, Ok tt)) /\
  forall n, In n names -> (get_first (s_headers x) n = value_in q n <-> bare (value_in q n)) /\
    forall v1 v2 vs, get_header (s_headers q) n = v1 :: v2 :: vs -> get_header (s_headers x) n = [trim_sp v1].
Proof.
  destruct C217_received as (b & x & P & _ & G & _). exists b, x. split; [exact P|]. intros n I. specialize (G n I). split.
  - rewrite <- bare_trim. unfold get_header in G. unfold get_first. destruct (hlook (s_headers x) (to_lower n)) as [[|y l]|]; [rewrite G; reflexivity|injection G as -> _; reflexivity|discriminate].
  - intros v1 v2 vs E. rewrite G. f_equal. f_equal. unfold get_header in E. unfold value_in, get_first. destruct (hlook (s_headers q) (to_lower n)) as [[|y l]|]; [rewrite E; reflexivity|injection E as -> _; reflexivity|discriminate].
Qed.
End C217.
Print Assumptions C217_written.
Print Assumptions C217_received.
Print Assumptions C217_kept.

(** A request with two Via values, and a From and a Call-ID that a blank continuation line follows, so that they end in a space; the
    answer to it has the first Via, and both without the space. *)
Definition ex_asked : bytes := crlf [str "OPTIONS sip:a@b SIP/2.0"; str "Via: SIP/2.0/UDP one;branch=z9"; str "Via: SIP/2.0/UDP two"; str "From: <sip:a@b>;tag=1"; str " "; str "To: <sip:c@d>"; str "Call-ID: 77"; str " "; str "CSeq: 1 OPTIONS"; str "Content-Length: 0"; []].
Example C217_example : exists b q h s1 text x, sip_parse (reader [ex_asked] 4096) new_sip = (b, (q, Ok tt)) /\ no_breaks (s_headers new_sip) /\
  Forall header_name identity /\ Forall (fun n => ~ same_name n (str "Content-Length")) identity /\ Forall (fun n => ~ In 13 (value_in q n)) identity /\
  copy_from (Some []) (s_headers q) identity = Ok h /\ made_with h (str "hello") (make_response 200 h (str "hello")) /\
  sip_bytes (fun m => m) (make_response 200 h (str "hello")) = Ok (s1, text) /\ room_for 4096 (make_response 200 h (str "hello")) q identity (str "hello") /\
  get_header (s_headers q) (str "Via") = [str "SIP/2.0/UDP one;branch=z9"; str "SIP/2.0/UDP two"] /\ value_in q (str "From") = str "<sip:a@b>;tag=1 " /\ value_in q (str "Call-ID") = str "77 " /\
  snd (sip_parse (reader [text] 4096) new_sip) = (x, Ok tt) /\ map (get_header (s_headers x)) identity = [[str "SIP/2.0/UDP one;branch=z9"]; [str "<sip:a@b>;tag=1"]; [str "<sip:c@d>"]; [str "77"]; [str "1 OPTIONS"]].
Proof.
  destruct (sip_parse (reader [ex_asked] 4096) new_sip) as [b [q r]] eqn:E. vm_compute in E. injection E as <- <- <-. do 6 eexists. split; [reflexivity|].
  split; [intros n v I; destruct I|]. split.
  { assert (D : forall n, forallb (fun c => (33 <=? c) && (c <=? 126) && negb (c =? 58)) n = true -> n <> [] -> header_name n).
    { intros n F N. split; [exact N|]. apply Forall_forall. intros c I. rewrite forallb_forall in F. specialize (F c I). unfold graphic. lia. }
    unfold identity. repeat (apply Forall_cons; [apply D; [vm_compute; reflexivity|discriminate]|]). constructor. }
  split; [unfold identity; repeat (apply Forall_cons; [intros X; vm_compute in X; discriminate X|]); constructor|].
  split.
  { assert (D : forall v, forallb (fun c => negb (c =? 13)) v = true -> ~ In 13 v) by (intros v F I; rewrite forallb_forall in F; specialize (F 13 I); discriminate F).
    unfold identity. repeat (apply Forall_cons; [apply D; vm_compute; reflexivity|]). constructor. }
  split; [vm_compute; reflexivity|]. split; [constructor; lia|]. split; [vm_compute; reflexivity|]. split.
  { split; [intros t Ht; vm_compute in Ht; injection Ht as <-; vm_compute; discriminate|]. split; [vm_compute; discriminate|]. unfold identity. repeat (apply Forall_cons; [vm_compute; discriminate|]). constructor. }
  do 4 (split; [vm_compute; reflexivity|]). vm_compute; reflexivity.
Qed.
