(** AMF encoders are fixed sequences of Write calls. *)
From Verif Require Import Base.Go Base.GoFacts Base.IO Proofs.IOFacts Model.AmfTypes Model.Amf3 Model.Amf0 Spec.Amf Spec.AmfFail Proofs.AmfFacts.

Lemma plan_delivers {A} calls (r : res A) w :
  (all_work w (length calls) -> run_plan calls r w = (accepted calls w, r)) /\
  (forall i k, fails_first w (length calls) i k -> run_plan calls r w = (stopped calls i k w, Err EWrite)).
Proof.
  revert w. induction calls as [|c cs IH]; intros w.
  - split; [|intros i k (H & _); cbn in H; lia]. intros _. unfold accepted. cbn. rewrite app_nil_r, Nat.add_0_r. destruct w; reflexivity.
  - split.
    + intros H. cbn [run_plan]. unfold write. pose proof (H 0%nat ltac:(cbn; lia)) as H0. rewrite Nat.add_0_r in H0. rewrite H0.
      rewrite (proj1 (IH _)).
      * unfold accepted. cbn [w_out w_calls w_script concat length]. rewrite <- app_assoc. do 2 f_equal. lia.
      * intros j Hj. cbn [w_calls w_script]. rewrite <- (H (S j)) by (cbn; lia). f_equal. lia.
    + intros i k (Hi & Hk & Hj). cbn [run_plan]. unfold write. destruct i as [|i].
      * rewrite Nat.add_0_r in Hk. rewrite Hk. unfold stopped. cbn [firstn concat nth app]. do 2 f_equal. lia.
      * pose proof (Hj 0%nat ltac:(lia)) as H0. rewrite Nat.add_0_r in H0. rewrite H0. rewrite (proj2 (IH _) i k).
        -- unfold stopped. cbn [w_out w_calls w_script firstn concat nth]. rewrite <- !app_assoc. do 2 f_equal. lia.
        -- split; [cbn in Hi; lia|]. cbn [w_calls w_script]. split; [rewrite <- Hk; f_equal; lia|].
           intros j Hj'. rewrite <- (Hj (S j)) by lia. f_equal. lia.
Qed.

Definition has_plan {A} (m : Wm A) : Prop := exists calls r, planned m calls r /\ ((exists a, r = Ok a) \/ exists e, r = Err e).
Lemma hp_ret {A} (a : A) : has_plan (wret a). Proof. exists [], (Ok a). split; [apply planned_ret|eauto]. Qed.
Lemma hp_fail {A} e : has_plan (@wfail A e). Proof. exists [], (Err e). split; [apply planned_fail|eauto]. Qed.
Lemma hp_write s : has_plan (write s). Proof. exists [s], (Ok tt). split; [apply planned_write|eauto]. Qed.
Lemma hp_bind {A B} (m : Wm A) (k : A -> Wm B) : has_plan m -> (forall a, has_plan (k a)) -> has_plan (wbind m k).
Proof.
  intros (c & r & H & [[a ->]|[e ->]]) HK.
  - destruct (HK a) as (c' & r' & H' & HR). exists (c ++ c'), r'. split; [eapply planned_bind; eassumption|exact HR].
  - exists c, (Err e). split; [apply planned_bind_err, H|eauto].
Qed.
Lemma hp_byte b : has_plan (write_byte b). Proof. unfold write_byte. apply hp_write. Qed.
Local Ltac hp := repeat first
  [ assumption | apply hp_ret | apply hp_fail | apply hp_write | apply hp_byte
  | match goal with |- has_plan (wbind _ _) => apply hp_bind; [|intros] end
  | match goal with |- has_plan (if ?b then _ else _) => destruct b end ].
Lemma hp_number b : has_plan (encode_number b). Proof. unfold encode_number. hp. Qed.
Lemma hp_string0 s mk : has_plan (encode_string0 s mk). Proof. unfold encode_string0. hp. Qed.
Lemma hp_long0 s mk : has_plan (encode_longstring0 s mk). Proof. unfold encode_longstring0. hp. Qed.
Lemma hp_sum ms : Forall has_plan ms -> has_plan (w_sum ms).
Proof. induction 1; cbn [w_sum]; hp. Qed.
Lemma hp_fields fs : Forall (fun p => has_plan (snd p)) fs -> has_plan (encode_fields0 fs).
Proof. induction 1 as [|[k m] fs H _ IH]; cbn [encode_fields0 snd] in *; hp. apply hp_string0. Qed.
Lemma hp_object fs mk : Forall (fun p => has_plan (snd p)) fs -> has_plan (encode_object0 fs mk).
Proof. intros H. unfold encode_object0. hp; [apply hp_fields, H|apply hp_string0]. Qed.
Lemma hp_strict ms : Forall has_plan ms -> has_plan (encode_strict0 ms).
Proof. intros H. unfold encode_strict0. hp. apply hp_sum, H. Qed.
Lemma forall_map_snd {A B} (P : B -> Prop) (f : A -> B) (fs : list (bytes * A)) : Forall (fun p => P (f (snd p))) fs ->
  Forall (fun p => P (snd p)) (map (fun p => (fst p, f (snd p))) fs).
Proof. induction 1; cbn [map]; constructor; assumption. Qed.
Lemma hp_encode0 t : has_plan (encode0 t).
Proof.
  induction t as [|b|b|w z|w z|s|s|s|l IH|fs IH|ty fs IH|] using tree_ind'; cbn [encode0].
  - unfold encode_null. hp.
  - unfold encode_boolean. hp.
  - apply hp_number.
  - apply hp_number.
  - apply hp_number.
  - destruct (len s <=? 65535); [apply hp_string0|apply hp_long0].
  - unfold encode_date0. hp. apply hp_number.
  - apply hp_strict. apply Forall_map, Forall_forall. intros x _. apply hp_number.
  - apply hp_strict. apply Forall_map, IH.
  - apply hp_object. apply forall_map_snd, IH.
  - unfold encode_typed0. hp; [apply hp_string0|]. apply hp_object. apply forall_map_snd, IH.
  - apply hp_fail.
Qed.
Lemma hp_u29 v : has_plan (write_u29 v). Proof. unfold write_u29. hp. Qed.
Lemma hp_utf8 s : has_plan (encode_utf8 s). Proof. unfold encode_utf8, encode_u29. hp. apply hp_u29. Qed.
Lemma in_insert {A} (p q : bytes * A) l : In q (insert_key p l) -> q = p \/ In q l.
Proof. induction l as [|x l IH]; cbn [insert_key]; [intros [<-|[]]; auto|]. destruct (bytes_leb _ _); cbn [In]; intuition. Qed.
Lemma in_sort {A} (q : bytes * A) l : In q (sort_keys l) -> In q l.
Proof. induction l as [|x l IH]; cbn [sort_keys]; [tauto|]. intros [->|H]%in_insert; [now left|right; auto]. Qed.
Lemma hp_object3 ty fs : Forall (fun p => has_plan (snd p)) fs -> has_plan (encode_object3 ty fs).
Proof.
  intros H. unfold encode_object3. hp; [apply hp_u29|apply hp_utf8| |].
  - apply hp_sum, Forall_map, Forall_forall. intros x _. apply hp_utf8.
  - apply hp_sum, Forall_map, Forall_forall. intros x Hx. apply in_sort in Hx. exact (proj1 (Forall_forall _ _) H x Hx).
Qed.
Lemma hp_integer z : has_plan (encode_integer z). Proof. unfold encode_integer. hp. apply hp_u29. Qed.
Lemma hp_double z : has_plan (encode_double z). Proof. unfold encode_double. hp. Qed.
Lemma hp_encode3 t : has_plan (encode3 t).
Proof.
  induction t as [|b|b|w z|w z|s|s|s|l IH|fs IH|ty fs IH|] using tree_ind'; cbn [encode3].
  - hp.
  - destruct b; hp.
  - apply hp_double.
  - destruct w; [apply hp_double|]. hp; [apply hp_integer|apply hp_double].
  - destruct w; [apply hp_double|]. hp; [apply hp_integer|apply hp_double].
  - unfold encode_string3. hp. apply hp_utf8.
  - unfold encode_date3. hp.
  - unfold encode_bytearray3, encode_u29. hp. apply hp_u29.
  - unfold encode_array3, encode_u29. hp; [apply hp_u29|apply hp_utf8|]. apply hp_sum, Forall_map, IH.
  - apply hp_object3. apply forall_map_snd, IH.
  - apply hp_object3. apply forall_map_snd, IH.
  - apply hp_fail.
Qed.

(** On a working writer a plan shows its bytes and its answer. *)
Lemma plan_of_run {A} (m : Wm A) s r : has_plan m -> (forall w, never_fails w -> exists n, m w = (mkW (w_out w ++ s) n (w_script w), r)) -> delivers m s r.
Proof.
  intros (calls & r' & H & _) HR. destruct (HR buffer0 (fun _ => eq_refl)) as (n & E). rewrite (H buffer0), (run_plan_ok calls r' buffer0 (fun _ => eq_refl)) in E.
  cbn [w_out buffer0 app] in E. injection E as E1 _ E2. subst s r. exists calls. split; [reflexivity|]. intros w. rewrite (H w). apply plan_delivers.
Qed.
Lemma plan_of_run_first b (m : Wm Z) s r : has_plan m ->
  (forall w, never_fails w -> exists n, (match write_byte b w with (w', Ok _) => m w' | (w', Err _) => (w', Ok 0) | (w', Panic) => (w', Panic) | (w', OutOfFuel) => (w', OutOfFuel) end)
     = (mkW (w_out w ++ s) n (w_script w), r)) ->
  delivers_but_first (fun w => match write_byte b w with (w', Ok _) => m w' | (w', Err _) => (w', Ok 0) | (w', Panic) => (w', Panic) | (w', OutOfFuel) => (w', OutOfFuel) end) s r.
Proof.
  intros (calls & r' & H & _) HR. destruct (HR buffer0 (fun _ => eq_refl)) as (n & E). unfold write_byte in *.
  rewrite (write_never_fails _ buffer0 (fun _ => eq_refl)) in E.
  rewrite (H (mkW _ _ _)) in E. rewrite run_plan_ok in E by (intros j; reflexivity).
  cbn [w_out buffer0 app] in E. injection E as E1 _ E2. subst s r. exists ([u8 b] :: calls). split; [reflexivity|]. intros w.
  pose proof (plan_delivers ([u8 b] :: calls) r' w) as [P1 P2]. cbn [run_plan] in P1, P2. split.
  - intros HW. specialize (P1 HW). unfold write in *. pose proof (HW 0%nat ltac:(cbn; lia)) as H0. rewrite Nat.add_0_r in H0. rewrite H0 in *. rewrite (H _). exact P1.
  - intros i k HF. specialize (P2 i k HF). destruct HF as (_ & Hk & Hj). unfold write in *. destruct i as [|i]; cbn [Nat.eqb].
    + rewrite Nat.add_0_r in Hk. rewrite Hk in *. injection P2 as P2. rewrite P2. reflexivity.
    + pose proof (Hj 0%nat ltac:(lia)) as H0. rewrite Nat.add_0_r in H0. rewrite H0 in *. rewrite (H _). exact P2.
Qed.
