(** Plans on writers that fail: the result tells whether a call failed. *)
From Verif Require Import Base.Go Base.IO Proofs.IOFacts Spec.Failed.

Lemma failed_same w : ~ failed w w. Proof. intros (n & H & _). lia. Qed.
Lemma run_plan_failed {A} calls (r : res A) : forall w w' r', run_plan calls r w = (w', r') -> (failed w w' /\ r' = Err EWrite) \/ (~ failed w w' /\ r' = r).
Proof.
  assert (M : forall cs (r0 : res A) w w' r', run_plan cs r0 w = (w', r') -> (w_calls w <= w_calls w')%nat).
  { induction cs as [|c cs IH]; intros r0 w w' r' E; cbn [run_plan] in E; [injection E as <- _; lia|]. unfold write in E. destruct (w_script w (w_calls w)) as [k|].
    - injection E as <- _. cbn [w_calls]. lia.
    - apply IH in E. cbn [w_calls] in E. lia. }
  induction calls as [|c cs IH]; intros w w' r' E; cbn [run_plan] in E.
  - injection E as <- <-. right. split; [apply failed_same|reflexivity].
  - unfold write in E. destruct (w_script w (w_calls w)) as [k|] eqn:S.
    + injection E as <- <-. left. split; [|reflexivity]. exists (w_calls w). cbn [w_calls]. split; [lia|congruence].
    + pose proof (M _ _ _ _ _ E) as ML. cbn [w_calls] in ML. destruct (IH _ _ _ E) as [[(n & HN & HS) ->]|[NF ->]]; cbn [w_calls w_script] in *.
      * left. split; [|reflexivity]. exists n. split; [lia|exact HS].
      * right. split; [|reflexivity]. intros (n & HN & HS). destruct (Nat.eq_dec n (w_calls w)) as [->|D]; [contradiction|]. apply NF. exists n. cbn [w_calls w_script]. split; [lia|exact HS].
Qed.
Lemma run_plan_outcome {A} calls (r : res A) w w' r' : run_plan calls r w = (w', r') ->
  exists out rest, w_out w' = w_out w ++ out /\ concat calls = out ++ rest /\ ((r' = r /\ rest = [] /\ ~ failed w w') \/ (r' = Err EWrite /\ failed w w')).
Proof.
  intros E. pose proof (run_plan_failed _ _ _ _ _ E) as HF. destruct (run_plan_any calls r w) as (w2 & r2 & E2 & _ & HC). rewrite E in E2. injection E2 as <- <-.
  destruct HC as [(-> & HO & HN)|(-> & j & k & Hj & _ & Hk & HO)].
  - exists (concat calls), []. rewrite app_nil_r. split; [exact HO|]. split; [reflexivity|]. destruct HF as [[HF ->]|[HF _]]; [right|left]; auto.
  - destruct (plan_prefix calls j k Hj) as [rest Hr]. exists (concat (firstn j calls) ++ firstn k (nth j calls [])), rest.
    split; [exact HO|]. split; [exact Hr|]. right. split; [reflexivity|]. destruct HF as [[HF _]|[HF EQ]]; [exact HF|].
    exfalso. apply HF. clear - E Hj Hk. revert w w' E j k Hj Hk. induction calls as [|c cs IH]; intros w w' E j k Hj Hk; [cbn in Hj; lia|].
    cbn [run_plan] in E. unfold write in E. destruct (w_script w (w_calls w)) as [m|] eqn:S.
    + injection E as <-. exists (w_calls w). cbn [w_calls]. split; [lia|congruence].
    + destruct j as [|j]; [rewrite Nat.add_0_r in Hk; congruence|]. specialize (IH _ _ E j k ltac:(cbn in Hj; lia)). cbn [w_calls w_script] in IH.
      destruct IH as (n & HN & HS); [rewrite <- Hk; f_equal; lia|]. cbn [w_calls w_script] in *. exists n. split; [lia|exact HS].
Qed.
