(** Proofs about transport streams that lose packets. *)
From Verif Require Import Base.Go Base.GoFacts Spec.Ts Spec.TsLoss.
Local Ltac Zify.zify_post_hook ::= Z.div_mod_to_equations.

Lemma noticeable_tail a l : noticeable (a ++ l) -> noticeable l.
Proof. intros H a' n b E. apply (H (a ++ a') n b). rewrite E, <- app_assoc. reflexivity. Qed.
Lemma pick_cons {A} m (x : A) ms l : pick (m :: ms) (x :: l) = (if m then [x] else []) ++ pick ms l.
Proof. destruct m; reflexivity. Qed.
Lemma repeat_snoc {A} (x : A) n l : repeat x n ++ x :: l = repeat x (S n) ++ l.
Proof. induction n as [|n IH]; cbn [repeat app]; [reflexivity|]. f_equal. exact IH. Qed.

(** What the receiver knows, and what is true. *)
Definition receiver_at (ok : bool) (st : option (Z * bytes)) (cur : bytes) (c : Z) (l : list (bool * tspkt)) : Prop :=
  if ok then exists c0, st = Some (c0, cur) /\ c = (c0 + 1) mod 16 /\ noticeable (true :: map fst l)
  else (st = None /\ noticeable (map fst l)) \/
    exists c0 cu n, st = Some (c0, cu) /\ (0 < n)%nat /\ c = (c0 + 1 + Z.of_nat n) mod 16 /\ noticeable (true :: repeat false n ++ map fst l).
Lemma receiver_noticeable ok st cur c l : receiver_at ok st cur c l -> noticeable (map fst l).
Proof.
  destruct ok; cbn [receiver_at].
  - intros (c0 & _ & _ & H). apply (noticeable_tail [true]) in H. exact H.
  - intros [[_ H]|(c0 & cu & n & _ & _ & _ & H)]; [exact H|]. apply (noticeable_tail (true :: repeat false n)) in H. exact H.
Qed.
Lemma careful_intact l : forall ok st cur c, 0 <= c < 16 -> continuous c (map snd l) -> receiver_at ok st cur c l ->
  careful st (pick (map fst l) (map snd l)) = pick (marks_after ok l) (units_after cur (map snd l)).
Proof.
  induction l as [|[a q] l IH]; intros ok st cur c Hc HC HR; [reflexivity|]. cbn [map fst snd continuous] in HC. destruct HC as [Hq HC].
  assert (Hc' : 0 <= (c + 1) mod 16 < 16) by (apply Z.mod_pos_bound; lia). pose proof (receiver_noticeable _ _ _ _ _ HR) as HN.
  cbn [map fst snd]. rewrite pick_cons. cbn [marks_after units_after]. destruct a; cbn [app].
  - cbn [careful]. assert (HN' : noticeable (true :: map fst l)) by exact HN.
    set (kept := match st with Some (c0, cu) => if ts_cc q =? (c0 + 1) mod 16 then Some cu else None | None => None end).
    assert (HK : kept = if ok then Some cur else None).
    { unfold kept. destruct ok; cbn [receiver_at] in HR.
      - destruct HR as (c0 & -> & E & _). rewrite Hq, E, Z.eqb_refl. reflexivity.
      - destruct HR as [[-> _]|(c0 & cu & n & -> & Hn & E & HG)]; [reflexivity|]. destruct (Z.eqb_spec (ts_cc q) ((c0 + 1) mod 16)) as [E2|E2]; [|reflexivity]. exfalso.
        assert (n = 0%nat); [|lia]. apply (HG [] n (map fst l)); [reflexivity|].
        assert (D : (c0 + 1 + Z.of_nat n) mod 16 = (c0 + 1) mod 16) by congruence.
        apply Nat2Z.inj. rewrite Nat2Z.inj_mod. change (Z.of_nat 16) with 16. change (Z.of_nat 0) with 0. clear - D. lia. }
    rewrite HK. rewrite !andb_true_r. destruct (ts_pusi q).
    + rewrite pick_cons. f_equal; [destruct ok; reflexivity|]. apply (IH true _ _ ((c + 1) mod 16)); [exact Hc'|exact HC|]. exists (ts_cc q). split; [reflexivity|]. split; [rewrite Hq; reflexivity|exact HN'].
    + destruct ok.
      * apply (IH true _ _ ((c + 1) mod 16)); [exact Hc'|exact HC|]. exists (ts_cc q). split; [reflexivity|]. split; [rewrite Hq; reflexivity|exact HN'].
      * apply (IH false _ _ ((c + 1) mod 16)); [exact Hc'|exact HC|]. left. split; [reflexivity|]. apply (noticeable_tail [true]) in HN'. exact HN'.
  - rewrite !andb_false_r.
    assert (HS : forall cu, receiver_at false st cu ((c + 1) mod 16) l).
    { intros cu. destruct ok; cbn [receiver_at] in *.
      - destruct HR as (c0 & -> & E & HG). right. exists c0, cur, 1%nat. split; [reflexivity|]. split; [lia|]. split; [|exact HG]. rewrite E. change (Z.of_nat 1) with 1. rewrite Zplus_mod_idemp_l. reflexivity.
      - destruct HR as [[-> _]|(c0 & cu' & n & -> & Hn & E & HG)]; [left; split; [reflexivity|]; apply (noticeable_tail [false]) in HN; exact HN|]. right. exists c0, cu', (S n). split; [reflexivity|]. split; [lia|]. split.
        + rewrite E, Zplus_mod_idemp_l. f_equal. lia.
        + cbn [map fst] in HG. rewrite repeat_snoc in HG. exact HG. }
    destruct (ts_pusi q).
    + rewrite pick_cons. cbn [app]. apply (IH false _ _ ((c + 1) mod 16)); [exact Hc'|exact HC|apply HS].
    + apply (IH false _ _ ((c + 1) mod 16)); [exact Hc'|exact HC|apply HS].
Qed.
(** Before the first unit the receiver waits. *)
Lemma careful_start l : forall c, 0 <= c < 16 -> continuous c (map snd l) -> noticeable (map fst l) ->
  careful None (pick (map fst l) (map snd l)) = pick (intact l) (units (map snd l)).
Proof.
  induction l as [|[a q] l IH]; intros c Hc HC HN; [reflexivity|]. cbn [map fst snd continuous] in *. destruct HC as [Hq HC].
  assert (Hc' : 0 <= (c + 1) mod 16 < 16) by (apply Z.mod_pos_bound; lia). assert (HN' : noticeable (map fst l)) by (apply (noticeable_tail [a]) in HN; exact HN).
  rewrite pick_cons. cbn [intact units]. destruct a; cbn [app careful]; destruct (ts_pusi q); cbn [app].
  - apply (careful_intact l true _ _ ((c + 1) mod 16)); [exact Hc'|exact HC|]. exists (ts_cc q). split; [reflexivity|]. split; [rewrite Hq; reflexivity|exact HN].
  - apply (IH _ Hc' HC HN').
  - apply (careful_intact l false _ _ ((c + 1) mod 16)); [exact Hc'|exact HC|]. left. split; [reflexivity|exact HN'].
  - apply (IH _ Hc' HC HN').
Qed.

Lemma pick_pes marks us : forall es, all_pes us = Some es -> all_pes (pick marks us) = Some (pick marks es).
Proof.
  revert marks. induction us as [|u us IH]; intros marks es E; cbn [all_pes] in E.
  - injection E as <-. destruct marks; reflexivity.
  - destruct (read_pes u) as [e|] eqn:Eu; [|discriminate E]. destruct (all_pes us) as [es'|]; [|discriminate E]. injection E as <-. destruct marks as [|m marks]; [reflexivity|].
    rewrite !pick_cons. specialize (IH marks es' eq_refl). destruct m; cbn [app]; [|exact IH]. cbn [all_pes]. rewrite Eu, IH. reflexivity.
Qed.
Lemma pick_related {A B} (R : A -> B -> Prop) marks l m : Forall2 R l m -> Forall2 R (pick marks l) (pick marks m).
Proof.
  intros H. revert marks. induction H as [|x y l m Hxy H IH]; intros marks; [destruct marks; constructor|]. destruct marks as [|k marks]; [constructor|].
  rewrite !pick_cons. destruct k; cbn [app]; [constructor; [exact Hxy|apply IH]|apply IH].
Qed.
(** One PID of the packets that arrive. *)
Lemma pid_pick pid marks (l : list tspkt) : length marks = length l -> exists sub, map snd sub = on_pid pid l /\ sub = filter (fun x => ts_pid (snd x) =? pid) (combine marks l) /\
  on_pid pid (pick marks l) = pick (map fst sub) (map snd sub).
Proof.
  revert marks. induction l as [|q l IH]; intros [|a marks] L; try discriminate L; [exists []; repeat split|]. injection L as L. destruct (IH marks L) as (sub & E1 & E2 & E3).
  rewrite pick_cons. cbn [combine filter snd on_pid]. fold (on_pid pid l). destruct (ts_pid q =? pid) eqn:EP.
  - exists ((a, q) :: sub). cbn [map fst snd]. split; [rewrite E1; reflexivity|]. split; [rewrite E2; reflexivity|]. rewrite pick_cons. destruct a; cbn [app]; [|exact E3]. cbn [on_pid filter]. rewrite EP. f_equal. exact E3.
  - exists sub. split; [exact E1|]. split; [exact E2|]. destruct a; cbn [app]; [|exact E3]. cbn [on_pid filter]. rewrite EP. exact E3.
Qed.
Lemma continuous_at l : forall c a q b, l = a ++ q :: b -> continuous c l -> 0 <= c < 16 -> ts_cc q = (c + len a) mod 16.
Proof.
  induction l as [|q0 l IH]; intros c a q b E HC Hc; [destruct a; discriminate E|]. destruct a as [|q1 a]; cbn [app] in E; injection E as -> E; destruct HC as [H1 H2].
  - rewrite H1. unfold len. cbn. rewrite Z.add_0_r, Z.mod_small by lia. reflexivity.
  - rewrite (IH _ _ _ _ E H2) by (apply Z.mod_pos_bound; lia). rewrite Zplus_mod_idemp_l. f_equal. unfold len. cbn [length]. lia.
Qed.
Lemma removelast_units l : forall cur, pick (marks_after true (map (fun q => (true, q)) l)) (units_after cur l) = removelast (units_after cur l).
Proof.
  assert (NE : forall l cur, units_after cur l <> []) by (induction l0 as [|q l0 IH]; intros cur; cbn [units_after]; [discriminate|]; destruct (ts_pusi q); [discriminate|apply IH]).
  induction l as [|q l IH]; intros cur; [reflexivity|]. cbn [map marks_after units_after]. destruct (ts_pusi q); cbn [andb]; [|apply IH]. rewrite pick_cons. cbn [app]. rewrite IH. pose proof (NE l (ts_payload q)) as N.
  destruct (units_after (ts_payload q) l) eqn:E; [contradiction|]. reflexivity.
Qed.
Lemma units_rest B : forall cur, skipn 1 (units_after cur B) = units B.
Proof. induction B as [|q B IH]; intros cur; [reflexivity|]. cbn [units_after units]. destruct (ts_pusi q); [reflexivity|apply IH]. Qed.
Lemma units_after_split A B : forall cur, skipn (S (length (filter ts_pusi A))) (units_after cur (A ++ B)) = units B.
Proof.
  induction A as [|q A IH]; intros cur; [apply units_rest|]. cbn [app units_after filter]. destruct (ts_pusi q); [|apply IH]. cbn [length]. exact (IH (ts_payload q)).
Qed.
Lemma units_split A B : skipn (length (filter ts_pusi A)) (units (A ++ B)) = units B.
Proof.
  induction A as [|q A IH]; [reflexivity|]. cbn [app units filter]. destruct (ts_pusi q); [|exact IH]. exact (units_after_split A B (ts_payload q)).
Qed.
Lemma all_true {A} (l : list A) : pick (repeat true (length l)) l = l.
Proof. induction l as [|x l IH]; [reflexivity|]. cbn [length repeat]. rewrite pick_cons. cbn [app]. f_equal. exact IH. Qed.
Lemma noticeable_all n : noticeable (repeat true n).
Proof.
  intros a k b E _. destruct k as [|k]; [reflexivity|]. exfalso. assert (H : In false (repeat true n)) by (rewrite E; apply in_or_app; right; right; left; reflexivity). apply repeat_spec in H. discriminate H.
Qed.
Lemma careful_whole l c : 0 <= c < 16 -> continuous c l -> careful None l = removelast (units l).
Proof.
  intros Hc HC. set (x := map (fun q => (true, q)) l).
  assert (E1 : map snd x = l) by (unfold x; rewrite map_map; apply map_id). assert (E2 : map fst x = repeat true (length l)) by (unfold x; rewrite map_map; clear; induction l as [|q l IH]; cbn; [reflexivity|]; f_equal; exact IH).
  pose proof (careful_start x c Hc) as H. rewrite E1, E2, all_true in H. rewrite H by (try exact HC; apply noticeable_all). unfold x. clear. induction l as [|q l IH]; [reflexivity|]. cbn [map intact units]. destruct (ts_pusi q); [apply removelast_units|exact IH].
Qed.
Lemma continuous_app A B : forall c, continuous c (A ++ B) -> exists c', (0 <= c < 16 -> 0 <= c' < 16) /\ continuous c' B.
Proof.
  induction A as [|q A IH]; intros c H; [exists c; split; [tauto|exact H]|]. destruct H as [_ H]. destruct (IH _ H) as (c' & H1 & H2). exists c'. split; [|exact H2]. intros _. apply H1, Z.mod_pos_bound. lia.
Qed.
Lemma skipn_pes n : forall us es, all_pes us = Some es -> all_pes (skipn n us) = Some (skipn n es).
Proof.
  induction n as [|n IH]; intros us es E; [exact E|]. destruct us as [|u us]; cbn [all_pes] in E; [injection E as <-; reflexivity|]. destruct (read_pes u) as [e|]; [|discriminate E]. destruct (all_pes us) as [es1|] eqn:Es; [|discriminate E]. injection E as <-. apply IH. exact Es.
Qed.
Lemma all_pes_length us : forall es, all_pes us = Some es -> length es = length us.
Proof. induction us as [|u us IH]; intros es E; cbn [all_pes] in E; [injection E as <-; reflexivity|]. destruct (read_pes u) as [e|]; [|discriminate E]. destruct (all_pes us) as [es'|]; [|discriminate E]. injection E as <-. cbn [length]. f_equal. apply IH. reflexivity. Qed.
Lemma removelast_pes us : forall es, all_pes us = Some es -> all_pes (removelast us) = Some (removelast es).
Proof.
  induction us as [|u us IH]; intros es E; [injection E as <-; reflexivity|]. cbn [all_pes] in E. destruct (read_pes u) as [e|] eqn:Eu; [|discriminate E]. destruct (all_pes us) as [es'|] eqn:Es; [|discriminate E]. injection E as <-.
  pose proof (all_pes_length _ _ Es) as L. specialize (IH es' eq_refl). destruct us as [|u2 us]; destruct es' as [|e2 es']; try discriminate L; [reflexivity|].
  change (removelast (u :: u2 :: us)) with (u :: removelast (u2 :: us)). change (removelast (e :: e2 :: es')) with (e :: removelast (e2 :: es')). cbn [all_pes]. rewrite Eu, IH. reflexivity.
Qed.
Lemma skipn_related {A B} (R : A -> B -> Prop) n : forall l m, Forall2 R l m -> Forall2 R (skipn n l) (skipn n m).
Proof. induction n as [|n IH]; intros l m H; [exact H|]. destruct H; [constructor|]. apply IH. assumption. Qed.
Lemma removelast_related {A B} (R : A -> B -> Prop) l m : Forall2 R l m -> Forall2 R (removelast l) (removelast m).
Proof. induction 1 as [|x y l m H F IH]; [constructor|]. destruct F as [|x2 y2 l m H2 F]; [constructor|]. change (Forall2 R (x :: removelast (x2 :: l)) (y :: removelast (y2 :: m))). constructor; [exact H|exact IH]. Qed.
Lemma marks_length l : forall ok cur, length (marks_after ok l) = length (units_after cur (map snd l)).
Proof. induction l as [|[a q] l IH]; intros ok cur; [reflexivity|]. cbn [marks_after map snd units_after]. destruct (ts_pusi q); cbn [length]; [f_equal|]; apply IH. Qed.
Lemma intact_length l : length (intact l) = length (units (map snd l)).
Proof. induction l as [|[a q] l IH]; [reflexivity|]. cbn [intact map snd units]. destruct (ts_pusi q); [apply marks_length|exact IH]. Qed.
