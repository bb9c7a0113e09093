(** Property C170: what AMF0 decoding says about input that ends too early (Spec/AmfTrunc.v). *)
From Coq Require Import String.
From Verif Require Import Base.Go Base.GoFacts Base.IO Base.Float64 Proofs.IOFacts Model.AmfTypes Model.Amf3 Model.Amf0 Spec.Amf Spec.AmfDoc Spec.AmfCut Spec.AmfTrunc
  Proofs.AmfFacts Proofs.AmfContr Proofs.Amf0Enc Proofs.Amf0RT Proofs.Amf0More Proofs.Amf0Doc Proofs.Amf0Acc Proofs.Amf0Ref Proofs.Amf0Panic Proofs.AmfTame Proofs.AmfHeap Proofs.AmfCut Proofs.AmfTrunc Props.AmfDoc.
Import ListNotations.
Local Open Scope list_scope.
Local Open Scope Z_scope.

(** Every proper beginning stops somewhere. *)
Lemma stops_somewhere us : forall p q, unit_bytes us = p ++ q -> q <> [] -> forall e,
  (stops_between us p /\ cut_error e us (len p) = e_err e) \/ (stops_inside true us p /\ cut_error e us (len p) = EOther) \/ (stops_inside false us p /\ cut_error e us (len p) = early (e_err e) [0]).
Proof.
  induction us as [|[one s] us IH]; intros p q E HQ e; [destruct p, q; try discriminate; congruence|].
  change ((one, s) :: us) with ([(one, s)] ++ us) in E. rewrite unit_bytes_app, unit_one in E. apply app_eq_app in E. destruct E as (l & [(E & E2)|(E & E2)]).
  - destruct (list_eq_dec Z.eq_dec l []) as [->|NL].
    + left. rewrite app_nil_r in E. subst s. split; [exists [(one, p)], us; split; [reflexivity|rewrite unit_one; reflexivity]|]. cbn [cut_error]. rewrite Z.leb_refl, Z.sub_diag. apply cut_error_0.
    + destruct (list_eq_dec Z.eq_dec p []) as [->|NP]; [left; split; [exists [], ((one, s) :: us); split; reflexivity|apply cut_error_0]|]. right.
      assert (IN : stops_inside one ((one, s) :: us) p) by (exists [], s, us, p, l; split; [reflexivity|]; split; [reflexivity|]; auto).
      apply len_pos in NL as L1. apply len_pos in NP as L2. cbn [cut_error]. rewrite E, len_app. replace (len p + len l <=? len p) with false by lia. replace (len p =? 0) with false by lia. rewrite <- E. destruct one; [left|right]; split; auto.
  - subst p. assert (C : cut_error e ((one, s) :: us) (len (s ++ l)) = cut_error e us (len l)).
    { cbn [cut_error]. rewrite len_app. pose proof (len_nonneg l). replace (len s <=? len s + len l) with true by lia. f_equal. lia. }
    rewrite C. destruct (IH l q E2 HQ e) as [((a & b & -> & ->) & H)|[((a & s' & b & x & y & -> & -> & -> & NX & NY) & H)|((a & s' & b & x & y & -> & -> & -> & NX & NY) & H)]].
    + left. split; [|exact H]. exists ((one, s) :: a), b. split; [reflexivity|]. change ((one, s) :: a) with ([(one, s)] ++ a). rewrite unit_bytes_app, unit_one. reflexivity.
    + right; left. split; [|exact H]. exists ((one, s) :: a), (x ++ y), b, x, y. split; [reflexivity|]. change ((one, s) :: a) with ([(one, s)] ++ a). rewrite unit_bytes_app, unit_one, <- app_assoc. auto.
    + right; right. split; [|exact H]. exists ((one, s) :: a), (x ++ y), b, x, y. split; [reflexivity|]. change ((one, s) :: a) with ([(one, s)] ++ a). rewrite unit_bytes_app, unit_one, <- app_assoc. auto.
Qed.
Lemma between_error us p : stops_between us p -> forall e, cut_error e us (len p) = e_err e.
Proof. intros (a & b & -> & ->) e. rewrite cut_error_app by lia. rewrite Z.sub_diag. apply cut_error_0. Qed.
Lemma inside_error one us p : stops_inside one us p -> forall e, cut_error e us (len p) = if one then EOther else early (e_err e) [0].
Proof.
  intros (a & s & b & x & y & -> & -> & -> & NX & NY) e. apply len_pos in NX. apply len_pos in NY. rewrite len_app, cut_error_app by lia. replace (len (unit_bytes a) + len x - len (unit_bytes a)) with (len x) by lia.
  cbn [cut_error]. rewrite len_app. replace (len x + len y <=? len x) with false by lia. replace (len x =? 0) with false by lia. reflexivity.
Qed.

(** ** C170: Decode of a proper beginning of a document fails: with io.EOF exactly when the input stops between two pieces, with
    io.ErrUnexpectedEOF exactly inside a length, number or count, with another error exactly inside a text or time zone. *)
Theorem C170_decode_cut_short : forall t d p q e, doc_ok true t -> no_avm t -> refs_in (len (d_ref0 d)) t ->
  layout0 t = p ++ q -> q <> [] -> d_r d = cont p e -> e_err e = EEof ->
  (snd (decode0 d) = Err EEof <-> stops_between (units0 t) p) /\
  (snd (decode0 d) = Err EUnexpectedEof <-> stops_inside false (units0 t) p) /\
  (snd (decode0 d) = Err EOther <-> stops_inside true (units0 t) p) /\
  exists x, snd (decode0 d) = Err x /\ (x = EEof \/ x = EUnexpectedEof \/ x = EOther).
Proof.
  intros t d p q e Hok Hno HF HL HQ Hr HE. rewrite cont_contr in Hr. assert (HU : unit_bytes (units0 t) = p ++ q) by (rewrite unit_bytes_doc; exact HL).
  assert (X : snd (decode0 d) = Err (cut_error e (units0 t) (len p))).
  { unfold decode0. rewrite (fuel_for_contr _ _ _ Hr). destruct (dec0_tells t Hok Hno (S (length p)) (S (length p)) d e HF (le_n _) p Hr (le_n _)) as [_ HC]. apply (HC q HU HQ). }
  rewrite X. pose proof (stops_somewhere _ _ _ HU HQ e) as W.
  assert (B1 := between_error (units0 t) p). assert (B2 := inside_error true (units0 t) p). assert (B3 := inside_error false (units0 t) p).
  specialize (fun H => B1 H e). specialize (fun H => B2 H e). specialize (fun H => B3 H e). rewrite HE in *. cbn [early] in *.
  destruct W as [[W H]|[[W H]|[W H]]]; rewrite H in *; (split; [|split; [|split]]); try (split; [first [intros _; exact W|discriminate]|first [reflexivity|intros G; exfalso; first [specialize (B1 G)|specialize (B2 G)|specialize (B3 G)]; congruence]]); eexists; (split; [reflexivity|auto]).
Qed.
Print Assumptions C170_decode_cut_short.

(** ** DecodeBatch: the values before the unfinished one; no error exactly when the input stops between two pieces of it. *)
Lemma batch_cut ts : forall t d p q e fuel, Forall (fun t => doc_ok true t /\ no_avm t) (ts ++ [t]) -> refs_seq (len (d_ref0 d)) (ts ++ [t]) ->
  layout0 t = p ++ q -> p <> [] -> q <> [] -> d_r d = contr (concat (map layout0 ts) ++ p) e -> e_err e = EEof -> (length ts < fuel)%nat ->
  exists d1 vs d2 x, d_r d1 = contr p e /\ refs_in (len (d_ref0 d1)) t /\ batch0 fuel d = (d2, (vs, match x with EEof => Ok tt | _ => Err x end)) /\ decode0 d1 = (d2, Err x) /\ length vs = length ts /\
    (Forall plain ts -> Forall2 (unfolds (d_heap d1)) vs (map read0 ts) /\ extends (d_heap d) (d_heap d1)).
Proof.
  induction ts as [|t0 ts IH]; intros t d p q e fuel HO HR HL HP HQ Hr HE Hf; (destruct fuel as [|fuel]; [lia|]).
  - cbn [app map concat] in *. inversion HO as [|? ? [Hok Hno] _]; subst. destruct HR as [HR _]. pose proof (C170_decode_cut_short t d p q e Hok Hno HR HL HQ Hr HE) as (_ & _ & _ & x & X & W).
    destruct (decode0 d) as [d2 r] eqn:ED. cbn [snd] in X. subst r. exists d, [], d2, x. split; [exact Hr|]. split; [exact HR|]. split; [cbn [batch0]; rewrite ED; destruct W as [-> | [-> | ->]]; reflexivity|]. split; [exact ED|]. split; [reflexivity|]. intros _. split; [constructor|apply extends_refl].
  - cbn [app map concat] in *. inversion HO as [|? ? [Hok Hno] HO']; subst. destruct HR as [HR1 HR2]. rewrite <- app_assoc in Hr. cbn [length] in Hf.
    assert (NE : concat (map layout0 ts) ++ p <> []) by (intros X; apply app_eq_nil in X; tauto).
    destruct (dec0_tells t0 Hok Hno (fuel_for d) (fuel_for d) d e HR1 (le_n _) _ Hr) as [HF _]; [rewrite (fuel_for_contr _ _ _ Hr); lia|].
    destruct (HF _ (f_equal (fun l => l ++ _) (eq_sym (unit_bytes_doc t0)))) as [(d1 & v & E1 & R1 & Q1)|[X _]]; [|congruence]. cbn beta in Q1.
    rewrite <- Q1 in HR2. destruct (IH t d1 p q e fuel HO' HR2 HL HP HQ R1 HE ltac:(lia)) as (d3 & vs & d2 & x & A1 & A2 & A3 & A4 & A5 & A6).
    exists d3, (v :: vs), d2, x. split; [exact A1|]. split; [exact A2|]. split; [cbn [batch0]; change (decode0 d) with (dec0 (fuel_for d) d); rewrite E1, A3; reflexivity|]. split; [exact A4|]. split; [cbn [length]; congruence|].
    intros PL. inversion PL as [|? ? P1 P2]; subst. destruct (A6 P2) as [U X]. rewrite <- cont_contr in Hr. destruct (C123_documents_read t0 d _ e Hok P1 Hr (or_introl NE)) as (d1' & v' & E1' & _ & U1 & hs & EX).
    change (decode0 d) with (dec0 (fuel_for d) d) in E1'. rewrite E1 in E1'. injection E1' as <- <-. split; [|eapply extends_trans; [exists hs; exact EX|exact X]]. cbn [map]. constructor; [eapply unfolds_extends; eassumption|exact U].
Qed.
Theorem C170_batch_cut_short : forall ts t d p q e, Forall (fun t => doc_ok true t /\ no_avm t) (ts ++ [t]) -> refs_seq (len (d_ref0 d)) (ts ++ [t]) ->
  layout0 t = p ++ q -> p <> [] -> q <> [] -> d_r d = cont (concat (map layout0 ts) ++ p) e -> e_err e = EEof ->
  exists d' vs r, decode_batch0 d = (d', (vs, r)) /\ length vs = length ts /\ (Forall plain ts -> Forall2 (unfolds (d_heap d')) vs (map read0 ts)) /\
    (r = Ok tt <-> stops_between (units0 t) p) /\ (r = Err EUnexpectedEof <-> stops_inside false (units0 t) p) /\ (r = Err EOther <-> stops_inside true (units0 t) p).
Proof.
  intros ts t d p q e HO HR HL HP HQ Hr HE. rewrite cont_contr in Hr.
  destruct (batch_cut ts t d p q e (fuel_for d) HO HR HL HP HQ Hr HE) as (d1 & vs & d2 & x & A1 & A2 & A3 & A4 & A5 & A6).
  { rewrite (fuel_for_contr _ _ _ Hr), app_length. clear. induction ts as [|t ts IH]; [cbn [length]; lia|]. cbn [map concat length]. rewrite app_length. pose proof (layout0_nonempty t). lia. }
  apply Forall_app in HO as [_ HO]. inversion HO as [|? ? [Hok Hno] _]; subst.
  pose proof (C170_decode_cut_short t d1 p q e Hok Hno A2 HL HQ A1 HE) as (C1 & C2 & C3 & y & Y & W). rewrite A4 in *. cbn [snd] in *. injection Y as <-.
  exists d2, vs, (match x with EEof => Ok tt | _ => Err x end). split; [exact A3|]. split; [exact A5|]. split.
  - intros PL. destruct (A6 PL) as [U _]. pose proof (decode0_heap d1) as X. rewrite A4 in X. cbn [fst] in X. revert U. clear - X. generalize (map read0 ts). induction vs as [|v vs IH]; intros l U; inversion U; subst; constructor; [eapply unfolds_extends; eassumption|auto].
  - destruct W as [-> | [-> | ->]]; (split; [rewrite <- C1|split; [rewrite <- C2|rewrite <- C3]]); split; intros X; try reflexivity; discriminate X.
Qed.
Print Assumptions C170_batch_cut_short.
(** The metadata message: its first value and the beginning of an object. Cut after a name, DecodeBatch says nothing; cut in the name or in
    the number it does. *)
Definition ex_cut_doc : doc0 := A_ecma 1 [(str "width", A_number 17)].
Definition ex_cut_first : doc0 := A_string (str "onMetaData").
Example C170_example : Forall (fun t => doc_ok true t /\ no_avm t) [ex_cut_first; ex_cut_doc] /\ refs_seq 0 [ex_cut_first; ex_cut_doc] /\
  (let stop n := snd (decode_batch0 (fresh (bytes_reader (layout0 ex_cut_first ++ firstn n (layout0 ex_cut_doc))))) in
   stop 12%nat = ([VStr (str "onMetaData")], Ok tt) /\ stop 9%nat = ([VStr (str "onMetaData")], Err EOther) /\ stop 15%nat = ([VStr (str "onMetaData")], Err EUnexpectedEof)) /\
  stops_between (units0 ex_cut_doc) (firstn 12 (layout0 ex_cut_doc)) /\ stops_inside true (units0 ex_cut_doc) (firstn 9 (layout0 ex_cut_doc)) /\ stops_inside false (units0 ex_cut_doc) (firstn 15 (layout0 ex_cut_doc)).
Proof.
  split; [repeat constructor; cbv -[Z.le Z.lt]; lia|]. split; [cbn; tauto|]. split; [vm_compute; auto|]. split; [|split].
  - exists [(false, [8]); (false, be32 1); (false, [0; 5]); (true, str "width")], [(false, [0]); (false, be64 17); (false, [0; 0]); (true, []); (false, [9])]. split; reflexivity.
  - exists [(false, [8]); (false, be32 1); (false, [0; 5])], (str "width"), [(false, [0]); (false, be64 17); (false, [0; 0]); (true, []); (false, [9])], (str "wi"), (str "dth"). repeat split; discriminate.
  - exists [(false, [8]); (false, be32 1); (false, [0; 5]); (true, str "width"); (false, [0])], (be64 17), [(false, [0; 0]); (true, []); (false, [9])], [0; 0], [0; 0; 0; 0; 0; 17]. repeat split; discriminate.
Qed.
