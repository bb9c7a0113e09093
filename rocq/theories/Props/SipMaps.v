(** Property C199: header maps keep the last value set under every name. *)
From Coq Require Import String.
From Verif Require Import Base.Go Base.GoFacts Base.IO Base.Text Model.Sip Model.SipMaps Spec.SipMaps Proofs.Text Proofs.SipMaps.
Import ListNotations.
Local Open Scope nat_scope.

(** ** C199 *)
(** A program on maps it has made never panics, and each map has, under each name, the last value set. *)
Theorem C199_history : forall os, legal os -> exists s, map_run [] os = Ok s /\ length s = made os /\
  forall i n o, i < made os -> last_value os i n o ->
    get_first (map_of s i) n = text_of o /\ get_header (map_of s i) n = match o with Some v => [v] | None => [] end.
Proof.
  intros os HL. destruct (run_state os HL) as (s & E & L & HI & HV). exists s. split; [exact E|]. split; [exact L|]. intros i n o Hi HO.
  destruct (HI i ltac:(lia)) as (m & Em & _). rewrite Em. pose proof (HV i m Em n o HO) as X. split; [exact (first_of m n o X)|].
  unfold get_header, hlook. rewrite X. destruct o; reflexivity.
Qed.
Print Assumptions C199_history.
(** There is always exactly one such value, or none. *)
Theorem C199_defined : forall os i n, exists! o, last_value os i n o.
Proof.
  induction os as [|p os IH] using rev_ind; intros i n.
  - exists None. split; [constructor|]. intros o H. inversion H as [? ? E1|? ? ? ? ? E1|? ? ? ? ? E1|? ? ? ? ? ? ? ? E1|? ? ? ? ? ? ? ? E1|? ? ? ? ? ? ? ? ? E1]; try reflexivity; destruct os; discriminate E1.
  - assert (INV : forall o, last_value (os ++ [p]) i n o -> match p with
      | New => last_value os i n o
      | Call k f => i = k /\ same_name n (fst (sets f)) /\ o = Some (snd (sets f)) \/ (i <> k \/ ~ same_name n (fst (sets f))) /\ last_value os i n o
      | Copy k j names => i = k /\ Exists (same_name n) names /\ (exists o', last_value os j n o' /\ o = Some (text_of o')) \/ (i <> k \/ ~ Exists (same_name n) names) /\ last_value os i n o
      end).
    { intros o H. inversion H as [? ? E1|? ? ? ? HO1 E1|? ? ? ? HS E1|? ? ? ? ? ? HN HO1 E1|? ? ? ? ? ? HN HO1 E1|? ? ? ? ? ? ? HN HO1 E1]; try (now destruct os); apply snoc_inj in E1 as [E1 E2]; subst; eauto 10. }
    destruct p as [|k f|k j names].
    + destruct (IH i n) as (o & H1 & H2). exists o. split; [constructor; exact H1|]. intros o' H. apply H2, (INV _ H).
    + destruct (Nat.eq_dec i k) as [->|N]; [destruct (list_eq_dec Z.eq_dec (to_lower n) (to_lower (fst (sets f)))) as [D|D]|].
      * exists (Some (snd (sets f))). split; [constructor; exact D|]. intros o' H. destruct (INV _ H) as [(_ & _ & ->)|([X|X] & _)]; [reflexivity|contradiction|contradiction].
      * destruct (IH k n) as (o & H1 & H2). exists o. split; [apply V_other; [right; exact D|exact H1]|]. intros o' H. destruct (INV _ H) as [(_ & X & _)|(_ & X)]; [contradiction|apply H2, X].
      * destruct (IH i n) as (o & H1 & H2). exists o. split; [apply V_other; [left; exact N|exact H1]|]. intros o' H. destruct (INV _ H) as [(X & _)|(_ & X)]; [contradiction|apply H2, X].
    + destruct (Nat.eq_dec i k) as [->|N]; [destruct (Exists_dec (same_name n) names (fun y => list_eq_dec Z.eq_dec (to_lower n) (to_lower y))) as [D|D]|].
      * destruct (IH j n) as (o & H1 & H2). exists (Some (text_of o)). split; [apply V_copied; assumption|]. intros o' H. destruct (INV _ H) as [(_ & _ & o2 & X & ->)|([X|X] & _)]; [rewrite (H2 _ X); reflexivity|contradiction|contradiction].
      * destruct (IH k n) as (o & H1 & H2). exists o. split; [apply V_not_copied; [right; exact D|exact H1]|]. intros o' H. destruct (INV _ H) as [(_ & X & _)|(_ & X)]; [contradiction|apply H2, X].
      * destruct (IH i n) as (o & H1 & H2). exists o. split; [apply V_not_copied; [left; exact N|exact H1]|]. intros o' H. destruct (INV _ H) as [(X & _)|(_ & X)]; [contradiction|apply H2, X].
Qed.
Print Assumptions C199_defined.
(** Setting any header on a map that is nil panics. *)
Theorem C199_nil_map : forall f, call_setter f None = Panic.
Proof. intros f. rewrite setter_first. reflexivity. Qed.
Print Assumptions C199_nil_map.

(** A Call-ID is set twice, in different cases, copied, and changed in the source: the copy keeps it; an absent header is
    copied as an empty one. *)
Example C199_example :
  let os := [New; New; Call 0 (SetCallID (str "a")); Call 0 (SetFirstHeader (str "CALL-id") (str "b")); Copy 1 0 [str "Call-Id"; str "Via"]; Call 0 (SetCallID (str "c"))] in
  legal os /\ last_value os 1 (str "call-ID") (Some (str "b")) /\ last_value os 1 (str "via") (Some []) /\ last_value os 0 (str "via") None.
Proof.
  cbn zeta.
  assert (A : same_name (str "call-ID") (str "CALL-id")) by (vm_compute; reflexivity).
  split; [|split; [|split]].
  - apply (L_next [New; New; Call 0 (SetCallID (str "a")); Call 0 (SetFirstHeader (str "CALL-id") (str "b")); Copy 1 0 [str "Call-Id"; str "Via"]]); [|cbn; lia].
    apply (L_next [New; New; Call 0 (SetCallID (str "a")); Call 0 (SetFirstHeader (str "CALL-id") (str "b"))]); [|cbn; lia].
    apply (L_next [New; New; Call 0 (SetCallID (str "a"))]); [|cbn; lia]. apply (L_next [New; New]); [|cbn; lia]. apply (L_next [New]); [|exact I]. apply (L_next []); [constructor|exact I].
  - apply (V_other [New; New; Call 0 (SetCallID (str "a")); Call 0 (SetFirstHeader (str "CALL-id") (str "b")); Copy 1 0 [str "Call-Id"; str "Via"]]); [left; lia|].
    apply (V_copied [New; New; Call 0 (SetCallID (str "a")); Call 0 (SetFirstHeader (str "CALL-id") (str "b"))] 1 0 [str "Call-Id"; str "Via"] _ (Some (str "b"))); [apply Exists_cons_hd; vm_compute; reflexivity|].
    apply (V_set [New; New; Call 0 (SetCallID (str "a"))] 0 (SetFirstHeader (str "CALL-id") (str "b"))). exact A.
  - apply (V_other [New; New; Call 0 (SetCallID (str "a")); Call 0 (SetFirstHeader (str "CALL-id") (str "b")); Copy 1 0 [str "Call-Id"; str "Via"]]); [left; lia|].
    apply (V_copied [New; New; Call 0 (SetCallID (str "a")); Call 0 (SetFirstHeader (str "CALL-id") (str "b"))] 1 0 [str "Call-Id"; str "Via"] _ None); [apply Exists_cons_tl, Exists_cons_hd; vm_compute; reflexivity|].
    apply (V_other [New; New; Call 0 (SetCallID (str "a"))]); [right; discriminate|]. apply (V_other [New; New]); [right; discriminate|]. apply (V_new [New]). apply (V_new []). constructor.
  - apply (V_other [New; New; Call 0 (SetCallID (str "a")); Call 0 (SetFirstHeader (str "CALL-id") (str "b")); Copy 1 0 [str "Call-Id"; str "Via"]]); [right; discriminate|].
    apply (V_not_copied [New; New; Call 0 (SetCallID (str "a")); Call 0 (SetFirstHeader (str "CALL-id") (str "b"))]); [left; lia|].
    apply (V_other [New; New; Call 0 (SetCallID (str "a"))]); [right; discriminate|]. apply (V_other [New; New]); [right; discriminate|]. apply (V_new [New]). apply (V_new []). constructor.
Qed.
