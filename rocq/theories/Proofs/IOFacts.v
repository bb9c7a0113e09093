(** Facts about Base/IO.v. *)
From Verif Require Import Base.Go Base.GoFacts Base.IO.

(** A writer computation that performs the given Write calls in order, stops at the first
    failure with that failure, and otherwise ends with [r]. *)
Fixpoint run_plan {A} (calls : list bytes) (r : res A) (w : writer) : writer * res A :=
  match calls with
  | [] => (w, r)
  | c :: cs =>
      match write c w with
      | (w', Ok _) => run_plan cs r w'
      | (w', Err e) => (w', Err e)
      | (w', Panic) => (w', Panic)
      | (w', OutOfFuel) => (w', OutOfFuel)
      end
  end.
Definition planned {A} (m : Wm A) (calls : list bytes) (r : res A) : Prop :=
  forall w, m w = run_plan calls r w.

Lemma planned_ret {A} (a : A) : planned (wret a) [] (Ok a).
Proof. intros w. reflexivity. Qed.
Lemma planned_fail {A} e : planned (@wfail A e) [] (Err e).
Proof. intros w. reflexivity. Qed.
Lemma planned_write s : planned (write s) [s] (Ok tt).
Proof.
  intros w. cbn [run_plan]. unfold write.
  destruct (w_script w (w_calls w)); reflexivity.
Qed.
Lemma run_plan_app {A B} c1 c2 (a : A) (r : res B) w :
  run_plan (c1 ++ c2) r w =
  match run_plan c1 (Ok a) w with
  | (w', Ok _) => run_plan c2 r w'
  | (w', Err e) => (w', Err e)
  | (w', Panic) => (w', Panic)
  | (w', OutOfFuel) => (w', OutOfFuel)
  end.
Proof.
  revert w; induction c1 as [|c c1 IH]; intros w; cbn [run_plan app]; [reflexivity|].
  destruct (write c w) as [w' [u|e| |]]; try reflexivity. apply IH.
Qed.
Lemma planned_bind {A B} (m : Wm A) (k : A -> Wm B) c1 a c2 r :
  planned m c1 (Ok a) -> planned (k a) c2 r -> planned (wbind m k) (c1 ++ c2) r.
Proof.
  intros H1 H2 w. unfold wbind. rewrite (H1 w), (run_plan_app c1 c2 a r w).
  destruct (run_plan c1 (Ok a) w) as [w' [x|e| |]] eqn:E; try reflexivity.
  assert (x = a); [|subst; apply H2].
  clear - E. revert w E. induction c1 as [|c c1 IH]; intros w E; cbn [run_plan] in E.
  - inversion E; reflexivity.
  - destruct (write c w) as [w1 [u|e| |]]; try discriminate. eapply IH; eassumption.
Qed.
Lemma planned_bind_err {A B} (m : Wm A) (k : A -> Wm B) c1 e :
  planned m c1 (Err e) -> planned (wbind m k) c1 (Err e).
Proof.
  intros H1 w. unfold wbind. rewrite (H1 w).
  clear H1. revert w. induction c1 as [|c c1 IH]; intros w; cbn [run_plan]; [reflexivity|].
  destruct (write c w) as [w' [u|e'| |]]; try reflexivity. apply IH.
Qed.

Lemma planned_ext {A} (m : Wm A) c r c' r' : planned m c r -> c = c' -> r = r' -> planned m c' r'.
Proof. intros H -> ->. exact H. Qed.

Lemma write_never_fails s w : never_fails w ->
  write s w = (mkW (w_out w ++ s) (S (w_calls w)) (w_script w), Ok tt).
Proof. intros H. unfold write. rewrite (H (w_calls w)). reflexivity. Qed.

Lemma run_plan_ok {A} calls (r : res A) w : never_fails w ->
  run_plan calls r w = (mkW (w_out w ++ concat calls) (w_calls w + length calls) (w_script w), r).
Proof.
  revert w; induction calls as [|c cs IH]; intros w H; cbn [run_plan concat length].
  - rewrite app_nil_r, Nat.add_0_r. destruct w; reflexivity.
  - rewrite (write_never_fails c w H). rewrite IH; [|exact H].
    cbn [w_out w_calls w_script]. rewrite app_assoc. f_equal. f_equal. lia.
Qed.

(** What any plan does on any writer. *)
Lemma run_plan_any {A} calls (r : res A) w :
  exists w' r', run_plan calls r w = (w', r') /\
    w_script w' = w_script w /\
    ((r' = r /\ w_out w' = w_out w ++ concat calls /\
      forall k, (k < length calls)%nat -> w_script w (w_calls w + k)%nat = None) \/
     (r' = Err EWrite /\
      exists j k, (j < length calls)%nat /\
        (forall i, (i < j)%nat -> w_script w (w_calls w + i)%nat = None) /\
        w_script w (w_calls w + j)%nat = Some k /\
        w_out w' = w_out w ++ concat (firstn j calls) ++ firstn k (nth j calls []))).
Proof.
  revert w; induction calls as [|c cs IH]; intros w; cbn [run_plan].
  - exists w, r. split; [reflexivity|]. split; [reflexivity|]. left.
    cbn. rewrite app_nil_r. split; [reflexivity|]. split; [reflexivity|]. intros k Hk; lia.
  - unfold write. destruct (w_script w (w_calls w)) as [m|] eqn:E.
    + eexists _, _. split; [reflexivity|]. split; [reflexivity|]. right. split; [reflexivity|].
      exists 0%nat, m. cbn. split; [lia|]. split; [intros; lia|]. rewrite Nat.add_0_r. split; [exact E|]. reflexivity.
    + destruct (IH (mkW (w_out w ++ c) (S (w_calls w)) (w_script w))) as (w' & r' & H1 & Hs & H2).
      exists w', r'. split; [exact H1|]. split; [exact Hs|].
      cbn [w_out w_calls w_script] in H2.
      destruct H2 as [(-> & H2 & H3)|(-> & j & k & Hj & Hi & Hk & Ho)]; [left|right].
      * split; [reflexivity|]. split.
        -- rewrite H2. cbn [concat]. rewrite app_assoc. reflexivity.
        -- intros [|k'] Hk'; [rewrite Nat.add_0_r; exact E|].
           cbn [length] in Hk'. specialize (H3 k' ltac:(lia)).
           replace (w_calls w + S k')%nat with (S (w_calls w) + k')%nat by lia. exact H3.
      * split; [reflexivity|]. exists (S j), k. cbn [length firstn nth concat].
        split; [lia|]. split.
        -- intros [|i] Hi'; [rewrite Nat.add_0_r; exact E|].
           specialize (Hi i ltac:(lia)). replace (w_calls w + S i)%nat with (S (w_calls w) + i)%nat by lia. exact Hi.
        -- split.
           ++ replace (w_calls w + S j)%nat with (S (w_calls w) + j)%nat by lia. exact Hk.
           ++ rewrite Ho, <- !app_assoc. reflexivity.
Qed.

(** The accepted bytes of a failed plan are a prefix of the full output. *)
Lemma plan_prefix (calls : list bytes) j k : (j < length calls)%nat ->
  exists rest : bytes, concat calls = (concat (firstn j calls) ++ firstn k (nth j calls [])) ++ rest.
Proof.
  intros Hj. exists (skipn k (nth j calls []) ++ concat (skipn (S j) calls)).
  rewrite <- !app_assoc. rewrite (app_assoc (firstn k _)), firstn_skipn.
  revert j Hj. induction calls as [|c cs IH]; intros [|j] Hj; cbn [length] in Hj; try lia; cbn [firstn nth concat skipn].
  - reflexivity.
  - rewrite (IH j) by lia. rewrite <- app_assoc. reflexivity.
Qed.

(** Readers. *)
Definition contr (s : bytes) (e : rend) : reader := mkR (match s with [] => [] | _ => [s] end) e false.

Lemma contr_rest s e : r_rest (contr s e) = s.
Proof. unfold r_rest, contr. destruct s; cbn; [reflexivity|]. rewrite app_nil_r. reflexivity. Qed.

Lemma read_contr a b e : 0 < len a -> read (len a) (contr (a ++ b) e) = (contr b e, Ok a).
Proof.
  intros Ha. unfold read, contr. destruct (a ++ b) as [|x l] eqn:E.
  - destruct a; [exfalso; unfold len in Ha; cbn [length] in Ha; lia | discriminate].
  - cbn [r_chunks r_end r_with]. destruct (len a =? 0) eqn:E0; [lia|].
    rewrite <- E. rewrite len_app. destruct (len a + len b <=? len a) eqn:E1.
    + assert (b = []) by (apply len_zero; pose proof (len_nonneg b); lia). subst b.
      rewrite app_nil_r. reflexivity.
    + rewrite take_app, drop_app. destruct b; [rewrite len_nil in E1; lia|]. reflexivity.
Qed.
Lemma read0_contr b e : b <> [] \/ e_zero e = false -> read 0 (contr b e) = (contr b e, Ok []).
Proof.
  intros H. unfold read, contr. destruct b as [|x b].
  - destruct H as [H|H]; [congruence|]. cbn [r_chunks r_end]. rewrite H. reflexivity.
  - reflexivity.
Qed.
Lemma read_full_contr a b e : 0 < len a -> read_full (len a) (contr (a ++ b) e) = (contr b e, Ok a).
Proof.
  intros Ha. unfold read_full, contr. destruct (a ++ b) as [|x l] eqn:E.
  - destruct a; [exfalso; unfold len in Ha; cbn [length] in Ha; lia | discriminate].
  - cbn [r_chunks r_end r_with read_full_chunks]. rewrite <- E, len_app.
    pose proof (len_nonneg b) as Hb.
    destruct (len a + len b <? len a) eqn:E1; [lia|].
    destruct (len a + len b =? len a) eqn:E2.
    + assert (b = []) by (apply len_zero; lia). subst b. rewrite app_nil_r. reflexivity.
    + rewrite take_app, drop_app. destruct b; [rewrite len_nil in E2; lia|]. reflexivity.
Qed.

(** [emits m s a]: m writes exactly s (in some number of Write calls) and returns a. *)
Definition emits {A} (m : Wm A) (s : bytes) (a : A) : Prop :=
  exists calls, planned m calls (Ok a) /\ concat calls = s.

Lemma emits_ret {A} (a : A) : emits (wret a) [] a.
Proof. exists []. split; [apply planned_ret|reflexivity]. Qed.
Lemma emits_write s : emits (write s) s tt.
Proof. exists [s]. split; [apply planned_write|]. cbn. apply app_nil_r. Qed.
Lemma emits_bind {A B} (m : Wm A) (k : A -> Wm B) s1 a s2 b :
  emits m s1 a -> emits (k a) s2 b -> emits (wbind m k) (s1 ++ s2) b.
Proof.
  intros (c1 & H1 & E1) (c2 & H2 & E2). exists (c1 ++ c2). split.
  - eapply planned_bind; eassumption.
  - rewrite concat_app. congruence.
Qed.
Lemma emits_ext {A} (m : Wm A) s a s' a' : emits m s a -> s = s' -> a = a' -> emits m s' a'.
Proof. intros H -> ->. exact H. Qed.

Lemma emits_run {A} (m : Wm A) s a w : emits m s a -> never_fails w ->
  exists n, m w = (mkW (w_out w ++ s) n (w_script w), Ok a).
Proof.
  intros (c & H & <-) Hw. rewrite (H w), run_plan_ok by exact Hw. eexists; reflexivity.
Qed.

(** On any writer, an emitting computation either does all of it or reports EWrite having
    delivered a prefix. *)
Lemma emits_any {A} (m : Wm A) s a w : emits m s a ->
  exists w' r', m w = (w', r') /\
    ((r' = Ok a /\ w_out w' = w_out w ++ s) \/
     (r' = Err EWrite /\ exists p q, s = p ++ q /\ w_out w' = w_out w ++ p)).
Proof.
  intros (c & H & <-). destruct (run_plan_any c (Ok a) w) as (w' & r' & Hr & _ & Hd).
  exists w', r'. rewrite (H w). split; [exact Hr|].
  destruct Hd as [(-> & Ho & _)|(-> & j & k & Hj & _ & _ & Ho)]; [left; tauto|right].
  split; [reflexivity|]. destruct (plan_prefix c j k Hj) as [q Hq].
  exists (concat (firstn j c) ++ firstn k (nth j c [])), q. split; [exact Hq|exact Ho].
Qed.
