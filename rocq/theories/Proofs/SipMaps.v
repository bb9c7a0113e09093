(** Proofs about programs on SIP header maps. *)
From Coq Require Import String.
From Verif Require Import Base.Go Base.GoFacts Base.IO Base.Text Model.Sip Model.SipMaps Spec.SipMaps Proofs.Text.
Import ListNotations.
Local Open Scope nat_scope.

Lemma put_length s i h : length (put_map s i h) = length s.
Proof. revert i. induction s as [|x s IH]; intros [|i]; cbn; auto. Qed.
Lemma put_same s i h : i < length s -> map_of (put_map s i h) i = h.
Proof. unfold map_of. revert i. induction s as [|x s IH]; intros [|i] H; cbn in *; try lia; [reflexivity|]. apply IH. lia. Qed.
Lemma put_other s i k h : k <> i -> map_of (put_map s i h) k = map_of s k.
Proof. unfold map_of. revert i k. induction s as [|x s IH]; intros [|i] [|k] H; cbn; try reflexivity; [lia|]. apply IH. lia. Qed.

(** All setters are SetFirstHeader. *)
Lemma set_lower h a b v : to_lower a = to_lower b -> set_first h a v = set_first h b v.
Proof. intros E. destruct h as [m|]; [|reflexivity]. unfold set_first. rewrite E. reflexivity. Qed.
Lemma setter_first f h : call_setter f h = set_first h (fst (sets f)) (snd (sets f)).
Proof. destruct f; cbn [call_setter sets fst snd]; [apply set_lower; reflexivity|..]; (apply set_lower; vm_compute; reflexivity). Qed.

Lemma mget_set k k' v (m : hmap) : mget k (mset k' v m) = if list_eq_dec Z.eq_dec k k' then Some v else mget k m.
Proof.
  destruct (list_eq_dec Z.eq_dec k k') as [->|N]; [apply mget_mset_same|]. apply mget_mset_other. congruence.
Qed.
Lemma first_of (m : hmap) n o : mget (to_lower n) m = option_map (fun v => [v]) o -> get_first (Some m) n = text_of o.
Proof. intros E. unfold get_first, hlook. rewrite E. destruct o; reflexivity. Qed.

(** Every map is there and has one value under each name that was set. *)
Definition inv (s : list header) : Prop := forall i, i < length s -> exists m, map_of s i = Some m /\ forall k l, mget k m = Some l -> exists v, l = [v].
Lemma single_first (m : hmap) n : (forall k l, mget k m = Some l -> exists v, l = [v]) ->
  exists o, mget (to_lower n) m = option_map (fun v => [v]) o.
Proof.
  intros H. destruct (mget (to_lower n) m) as [l|] eqn:E; [|exists None; reflexivity]. destruct (H _ _ E) as [v ->]. exists (Some v). reflexivity.
Qed.
Lemma inv_put s i m n v : inv s -> i < length s -> map_of s i = Some m -> inv (put_map s i (Some (mset (to_lower n) [v] m))).
Proof.
  intros HI Hi Hm k Hk. rewrite put_length in Hk. destruct (Nat.eq_dec k i) as [->|N].
  - rewrite put_same by exact Hi. eexists. split; [reflexivity|]. intros key l E. rewrite mget_set in E. destruct (list_eq_dec Z.eq_dec key (to_lower n)) as [->|X]; [injection E as <-; eauto|].
    destruct (HI i Hi) as (m' & E1 & E2). rewrite Hm in E1. injection E1 as <-. exact (E2 _ _ E).
  - rewrite put_other by exact N. exact (HI k Hk).
Qed.
(** CopyFrom, name by name. *)
Lemma copy_all names : forall s i j, inv s -> i < length s -> j < length s ->
  exists s', copy_names s i j names = Ok s' /\ length s' = length s /\ inv s' /\
    (forall k, k <> i -> map_of s' k = map_of s k) /\
    forall m m' mj, map_of s i = Some m -> map_of s' i = Some m' -> map_of s j = Some mj -> forall n,
      (Exists (same_name n) names -> mget (to_lower n) m' = Some [get_first (Some mj) n]) /\
      (~ Exists (same_name n) names -> mget (to_lower n) m' = mget (to_lower n) m).
Proof.
  induction names as [|x names IH]; intros s i j HI Hi Hj.
  - exists s. split; [reflexivity|]. split; [reflexivity|]. split; [exact HI|]. split; [reflexivity|]. intros m m' mj E1 E2 _ n. rewrite E1 in E2. injection E2 as <-.
    split; [intros H; inversion H|reflexivity].
  - destruct (HI i Hi) as (m0 & Em & Es). destruct (HI j Hj) as (mj0 & Emj & Esj). cbn [copy_names]. rewrite Em, Emj. cbn [set_first bind].
    set (v := get_first (Some mj0) x). set (s1 := put_map s i (Some (mset (to_lower x) [v] m0))).
    assert (HI1 : inv s1) by (apply inv_put; assumption).
    assert (L1 : length s1 = length s) by apply put_length.
    destruct (IH s1 i j HI1 ltac:(lia) ltac:(lia)) as (s' & E & L & HI' & HO & HS).
    exists s'. split; [exact E|]. split; [lia|]. split; [exact HI'|]. split; [intros k Hk; rewrite (HO k Hk); apply put_other, Hk|].
    intros m m' mj X1 X2 X3 n. injection X1 as <-. injection X3 as <-.
    assert (E1 : map_of s1 i = Some (mset (to_lower x) [v] m0)) by (apply put_same, Hi).
    assert (EJ : exists mj1, map_of s1 j = Some mj1 /\ get_first (Some mj1) n = get_first (Some mj0) n).
    { destruct (Nat.eq_dec j i) as [->|N].
      - eexists. split; [exact E1|]. rewrite Em in Emj. injection Emj as <-. destruct (single_first m0 n Es) as [o Ho].
        rewrite (first_of m0 n o Ho). destruct (list_eq_dec Z.eq_dec (to_lower n) (to_lower x)) as [D|D].
        + apply (first_of _ _ (Some (text_of o))). rewrite mget_set. destruct (list_eq_dec Z.eq_dec (to_lower n) (to_lower x)); [|contradiction]. cbn [option_map]. do 2 f_equal.
          unfold v. rewrite D in Ho. exact (first_of m0 x o Ho).
        + apply first_of. rewrite mget_set. destruct (list_eq_dec Z.eq_dec (to_lower n) (to_lower x)); [contradiction|exact Ho].
      - exists mj0. split; [unfold s1; rewrite put_other by exact N; exact Emj|reflexivity]. }
    destruct EJ as (mj1 & EJ1 & EJ2). destruct (HS _ _ _ E1 X2 EJ1 n) as [HA HB]. rewrite EJ2 in HA.
    assert (DX : Exists (same_name n) names \/ ~ Exists (same_name n) names).
    { destruct (Exists_dec (same_name n) names (fun y => list_eq_dec Z.eq_dec (to_lower n) (to_lower y))); auto. }
    split.
    + intros HE. destruct DX as [DX|DX]; [exact (HA DX)|]. rewrite (HB DX), mget_set.
      inversion HE as [? ? HE1|? ? HE1]; subst; [|contradiction]. unfold same_name in HE1. rewrite HE1.
      destruct (list_eq_dec Z.eq_dec (to_lower x) (to_lower x)); [|contradiction]. do 2 f_equal. unfold v, get_first. rewrite HE1. reflexivity.
    + intros HN. rewrite HB by (intros X; apply HN; now right). rewrite mget_set. destruct (list_eq_dec Z.eq_dec (to_lower n) (to_lower x)) as [D|D]; [|reflexivity].
      exfalso. apply HN. left. exact D.
Qed.

Lemma made_app a b : made (a ++ b) = made a + made b.
Proof. induction a as [|[]] ; cbn; lia. Qed.
Lemma run_app os : forall s o, map_run s (os ++ [o]) = (let* s' := map_run s os in map_step s' o).
Proof.
  induction os as [|x os IH]; intros s o; cbn [map_run app].
  - cbn [bind]. destruct (map_step s o); reflexivity.
  - destruct (map_step s x); cbn [bind]; auto.
Qed.
Lemma snoc_inj {A} (a b : list A) x y : a ++ [x] = b ++ [y] -> a = b /\ x = y. Proof. apply app_inj_tail. Qed.

Lemma run_state os : legal os -> exists s, map_run [] os = Ok s /\ length s = made os /\ inv s /\
  forall i m, map_of s i = Some m -> forall n o, last_value os i n o -> mget (to_lower n) m = option_map (fun v => [v]) o.
Proof.
  induction 1 as [|os o HL (s & E & L & HI & HV) HU].
  - exists []. split; [reflexivity|]. split; [reflexivity|]. split; [intros i Hi; cbn in Hi; lia|]. intros i m X. unfold map_of in X. destruct i; discriminate X.
  - rewrite run_app, E. cbn [bind]. rewrite made_app. destruct o as [|i f|i j names]; cbn [uses] in HU; cbn [made map_step].
    + exists (s ++ [Some []]). split; [reflexivity|]. split; [rewrite app_length; cbn; lia|]. split.
      * intros i Hi. rewrite app_length in Hi. cbn in Hi. unfold map_of. destruct (Nat.lt_ge_cases i (length s)) as [G|G].
        -- rewrite app_nth1 by exact G. exact (HI i G).
        -- replace i with (length s) by lia. rewrite app_nth2, Nat.sub_diag by lia. eexists. split; [reflexivity|]. intros k l X. discriminate X.
      * intros i m X n o HO.
        assert (HO' : last_value os i n o).
        { inversion HO as [? ? E1|? ? ? ? HO1 E1|? ? ? ? ? E1|? ? ? ? ? ? ? ? E1|? ? ? ? ? ? ? ? E1|? ? ? ? ? ? ? ? ? E1]; try (now destruct os); apply snoc_inj in E1 as [E1 E2]; try discriminate E2. subst. exact HO1. }
        unfold map_of in X. destruct (Nat.lt_ge_cases i (length s)) as [G|G].
        -- rewrite app_nth1 in X by exact G. exact (HV i m X n o HO').
        -- assert (i = length s) as -> by (destruct (Nat.eq_dec i (length s)); [assumption|rewrite nth_overflow in X by (rewrite app_length; cbn; lia); discriminate X]).
           rewrite app_nth2, Nat.sub_diag in X by lia. injection X as <-.
           assert (NO : forall os k n o, legal os -> made os <= k -> last_value os k n o -> o = None).
           { clear. intros os k n o HL. revert k n o. induction HL as [|os p HL IH HU]; intros k n o Hk H.
             - inversion H as [? ? E1|? ? ? ? HO1 E1|? ? ? ? ? E1|? ? ? ? ? ? ? ? E1|? ? ? ? ? ? ? ? E1|? ? ? ? ? ? ? ? ? E1]; try (symmetry in E1; apply app_eq_nil in E1 as [_ E1]; discriminate E1); try reflexivity;
                 subst; destruct os; discriminate.
             - rewrite made_app in Hk. inversion H as [? ? E1|? ? ? ? HO1 E1|? ? ? ? ? E1|? ? ? ? ? ? ? HO1 E1|? ? ? ? ? ? ? HO1 E1|? ? ? ? ? ? ? ? HO1 E1]; try (now destruct os); apply snoc_inj in E1 as [E1 E2]; subst; cbn [uses] in HU; cbn [made] in Hk; try (exfalso; lia); (eapply IH; [|exact HO1]; lia). }
           rewrite (NO os (length s) n o HL ltac:(lia) HO'). reflexivity.
    + rewrite setter_first. destruct (HI i ltac:(lia)) as (m0 & Em & Es). rewrite Em. cbn [set_first bind]. eexists. split; [reflexivity|]. split; [rewrite put_length; lia|]. split; [apply inv_put; [exact HI|lia|exact Em]|].
      intros k m X n o HO.
      inversion HO as [? ? E1|? ? ? ? HO1 E1|? ? ? ? HS E1|? ? ? ? ? ? HN HO1 E1|? ? ? ? ? ? ? HO1 E1|? ? ? ? ? ? ? ? HO1 E1]; try (now destruct os); apply snoc_inj in E1 as [E1 E2]; try discriminate E2; subst; injection E2 as -> ->.
      * rewrite put_same in X by lia. injection X as <-. rewrite mget_set. unfold same_name in HS. destruct (list_eq_dec Z.eq_dec (to_lower n) (to_lower (fst (sets f)))); [reflexivity|contradiction].
      * destruct (Nat.eq_dec k i) as [->|N].
        -- destruct HN as [HN|HN]; [contradiction|]. rewrite put_same in X by lia. injection X as <-. rewrite mget_set. destruct (list_eq_dec Z.eq_dec (to_lower n) (to_lower (fst (sets f)))); [contradiction|]. exact (HV i m0 Em n o HO1).
        -- rewrite put_other in X by exact N. exact (HV k m X n o HO1).
    + destruct HU as [Hi Hj]. destruct (copy_all names s i j HI ltac:(lia) ltac:(lia)) as (s' & E' & L' & HI' & HO' & HS').
      exists s'. split; [exact E'|]. split; [lia|]. split; [exact HI'|]. intros k m X n o HO.
      destruct (HI i ltac:(lia)) as (m0 & Em & Es). destruct (HI j ltac:(lia)) as (mj & Emj & Esj).
      inversion HO as [? ? E1|? ? ? ? HO1 E1|? ? ? ? HS E1|? ? ? ? ? ? HN HO1 E1|? ? ? ? ? ? HN HO1 E1|? ? ? ? ? ? ? HN HO1 E1]; try (now destruct os); apply snoc_inj in E1 as [E1 E2]; try discriminate E2; subst; injection E2 as -> -> ->.
      * rewrite (proj1 (HS' _ _ _ Em X Emj n) HN). cbn [option_map]. do 2 f_equal. apply first_of. exact (HV j mj Emj n _ HO1).
      * destruct (Nat.eq_dec k i) as [->|N].
        -- destruct HN as [HN|HN]; [contradiction|]. rewrite (proj2 (HS' _ _ _ Em X Emj n) HN). exact (HV i m0 Em n o HO1).
        -- rewrite (HO' k N) in X. exact (HV k m X n o HO1).
Qed.
