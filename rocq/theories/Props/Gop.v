(** Properties C08 - C14: the GOP cache and the media type set. *)
From Verif Require Import Base.Go Base.GoFacts Model.Packet Model.Gop Model.Flv Spec.Gop Proofs.Gop.

(** Example packets: a key frame, an inter frame, a video sequence header, an AAC sequence header, metadata. *)
Definition ex_v (seq key inter : bool) (d : bytes) : packet :=
  mkP 0 0 0 0 (Some (mkH (Some (mkVH key inter seq false true 7 0)) None)) d (Some d).
Definition ex_key d := ex_v false true false d.
Definition ex_inter d := ex_v false false true d.
Definition ex_seq d := ex_v true true false d.
Definition ex_aac d := mkP 1 0 0 0 (Some (mkH None (Some (mkAH 10 0 true false true)))) d (Some d).
Definition ex_meta d := mkP 2 0 0 0 None d None.
Definition ex_pw : pwriter := mkPW [] 0 (fun _ => false).
Definition all_ok (rs : list (res unit)) : Prop := Forall (fun r => r = Ok tt) rs.

Definition ex_c (n : Z) : cache := match new_cache n with Ok c => c | _ => mkC (mkG 0 0 0 []) None None None end.
Local Ltac ex_run n h := exists (ex_c n), (fst (cache_run (ex_c n) h)), (snd (cache_run (ex_c n) h)); split; [reflexivity|]; split; [apply surjective_pairing|].

Lemma accepted_all h : forall rs, length rs = length h -> all_ok rs -> accepted h rs = h.
Proof.
  induction h as [|p h IH]; intros [|r rs] Hl Ha; cbn [length accepted] in *; try lia; [reflexivity|].
  inversion Ha; subst. f_equal. apply IH; [lia|assumption].
Qed.
Lemma new_cache_ok n : 0 <= n -> exists c, new_cache n = Ok c.
Proof. intros H. unfold new_cache, new_cache_of, new_gops. replace (n <? 0) with false by lia. eauto. Qed.
Lemma run_rep n c0 h c rs : new_cache n = Ok c0 -> cache_run c0 h = (c, rs) ->
  Rep (Z.to_nat n) c (accepted h rs) /\ length rs = length h.
Proof. intros H1 H2. exact (rep_run _ _ _ [] _ _ (rep_new _ _ H1) H2). Qed.
Lemma healthy_ok w l : healthy w -> array_send pwrite l w = (mkPW (pw_out w ++ l) (pw_calls w + length l) (pw_fails w), Ok tt).
Proof. intros H. apply array_send_ok. intros; apply H. Qed.

(** ** C08 *)
Theorem C08_replays_last_gops : forall n h c0 c rs w,
  new_cache n = Ok c0 -> cache_run c0 h = (c, rs) -> all_ok rs -> healthy w ->
  exists w', cache_send c w = (w', Ok tt) /\ pw_out w' = pw_out w ++ replay (Z.to_nat n) h.
Proof.
  intros n h c0 c rs w Hn Hr Ha Hw. destruct (run_rep _ _ _ _ _ Hn Hr) as [HR Hl].
  rewrite (accepted_all _ _ Hl Ha) in HR. rewrite (rep_send _ _ _ _ HR), healthy_ok by exact Hw. eexists. split; reflexivity.
Qed.
Print Assumptions C08_replays_last_gops.
(** A cache can be made exactly for the capacities n >= 0. *)
Theorem C08_new_cache : forall n, (0 <= n -> exists c, new_cache n = Ok c) /\ (n < 0 -> new_cache n = Panic).
Proof. intros n. split; [apply new_cache_ok|]. intros H. unfold new_cache, new_cache_of, new_gops. replace (n <? 0) with true by lia. reflexivity. Qed.
Print Assumptions C08_new_cache.
Example C08_example : exists c0 c rs, new_cache 2 = Ok c0 /\
  cache_run c0 [ex_meta [1]; ex_seq [2]; ex_key [3]; ex_inter [4]; ex_key [5]; ex_aac [6]; ex_inter [7]; ex_key [8]; ex_inter [9]; ex_meta [10]] = (c, rs) /\
  all_ok rs /\ pw_out (fst (cache_send c ex_pw)) = [ex_meta [10]; ex_seq [2]; ex_aac [6]; ex_key [5]; ex_inter [7]; ex_key [8]; ex_inter [9]].
Proof.
  ex_run 2 [ex_meta [1]; ex_seq [2]; ex_key [3]; ex_inter [4]; ex_key [5]; ex_aac [6]; ex_inter [7]; ex_key [8]; ex_inter [9]; ex_meta [10]].
  split; [|vm_compute; reflexivity]. vm_compute. repeat constructor.
Qed.

(** ** C09 *)
(** The bound on the number of GOPs holds, and that on the packets of a GOP with 1025 instead of 1024. *)
Theorem C09_bounded_partial : forall n h c0 c rs w, new_cache n = Ok c0 -> cache_run c0 h = (c, rs) -> healthy w ->
  exists w' hs gs, cache_send c w = (w', Ok tt) /\ pw_out w' = pw_out w ++ hs ++ concat gs /\
    (length hs <= 3)%nat /\ len gs <= n /\ Forall (fun g => good_gop g /\ len g <= 1025) gs.
Proof.
  intros n h c0 c rs w Hn Hr Hw. destruct (run_rep _ _ _ _ _ Hn Hr) as [HR Hl].
  rewrite (rep_send _ _ _ _ HR), healthy_ok by exact Hw. unfold replay.
  eexists _, (opt (latest is_meta _) ++ opt (latest is_video_seq _) ++ opt (latest is_aac_seq _)), (lastn _ _).
  split; [reflexivity|]. cbn [pw_out]. split; [rewrite <- !app_assoc; reflexivity|]. split.
  - rewrite !app_length. assert (HO : forall o : option packet, (length (opt o) <= 1)%nat) by (intros [?|]; cbn; lia).
    pose proof (HO (latest is_meta (accepted h rs))). pose proof (HO (latest is_video_seq (accepted h rs))).
    pose proof (HO (latest is_aac_seq (accepted h rs))). lia.
  - assert (Hn0 : 0 <= n). { destruct (Z.lt_ge_cases n 0) as [H|H]; [|exact H]. rewrite (proj2 (C08_new_cache n) H) in Hn. discriminate. }
    split.
    + unfold len. pose proof (lastn_length (Z.to_nat n) (gops_of (accepted h rs))). lia.
    + destruct (Z.eq_dec n 0) as [->|Hz]; [rewrite lastn_0; constructor|].
      apply Forall_lastn. apply Forall_forall. intros g Hg. split.
      * exact (proj1 (Forall_forall _ _) (gops_of_good _) g Hg).
      * pose proof (accepted_small (Z.to_nat n) h ltac:(lia) c0 [] c rs (rep_new _ _ Hn) (Forall_nil _) Hr) as HS.
        exact (proj1 (Forall_forall _ _) HS g Hg).
Qed.
Print Assumptions C09_bounded_partial.

Lemma inter_no_panic p : is_inter p = true -> p_type p = 0 /\ video_of p <> None.
Proof.
  unfold is_inter, video_of. intros H. apply andb_prop in H as [H1 H2]. split; [lia|].
  destruct (p_header p) as [[[v|] a]|]; cbn; congruence.
Qed.
Lemma key_no_panic p : is_key p = true -> p_type p = 0 /\ video_of p <> None /\ is_inter p = false.
Proof.
  unfold is_key, is_inter, video_of. intros H. apply andb_prop in H as [H1 H2]. split; [lia|].
  destruct (p_header p) as [[[v|] a]|]; try congruence. apply andb_prop in H2 as [H2 H3]. rewrite H3. split; [cbn; congruence|].
  rewrite andb_false_r. cbn. rewrite andb_false_r. reflexivity.
Qed.
Lemma key_not_inter p : is_inter p = true -> is_key p = false.
Proof. intros H. destruct (is_key p) eqn:E; [|reflexivity]. apply key_no_panic in E. destruct E as (_ & _ & E). congruence. Qed.
Lemma gops_key_inters k is : is_key k = true -> Forall (fun p => is_inter p = true) is -> gops_of (k :: is) = [k :: is].
Proof.
  intros Hk. induction is as [|i is IH] using rev_ind; intros Hi.
  - unfold gops_of. cbn [fold_left]. unfold gop_step. rewrite Hk. reflexivity.
  - apply Forall_app in Hi as [H1 H2]. inversion H2; subst. change (k :: is ++ [i]) with ((k :: is) ++ [i]). rewrite gops_of_snoc, (IH H1).
    unfold gop_step. rewrite (key_not_inter _ H3), H3. reflexivity.
Qed.
Lemma run_snoc h : forall c p, cache_run c (h ++ [p]) =
  let '(c1, rs) := cache_run c h in let '(c2, r) := cache_write c1 p in (c2, rs ++ [r]).
Proof.
  induction h as [|q h IH]; intros c p; cbn [app cache_run].
  - destruct (cache_write c p); reflexivity.
  - destruct (cache_write c q) as [c1 r]. rewrite IH. destruct (cache_run c1 h) as [c2 rs]. destruct (cache_write c2 p). reflexivity.
Qed.
Lemma run_key_inters n c0 k is : 0 < n -> new_cache n = Ok c0 -> is_key k = true -> Forall (fun p => is_inter p = true) is ->
  (length is <= 1024)%nat -> exists c rs, cache_run c0 (k :: is) = (c, rs) /\ all_ok rs /\ Rep (Z.to_nat n) c (k :: is).
Proof.
  intros Hn Hc Hk. induction is as [|i is IH] using rev_ind; intros Hi Hl.
  - cbn [cache_run]. destruct (cache_write c0 k) as [c1 r] eqn:E.
    destruct (rep_write _ _ _ _ _ _ (rep_new _ _ Hc) E) as [H _]. destruct (key_no_panic _ Hk) as (K1 & K2 & K3).
    destruct r as [[]|e| |].
    + exists c1, [Ok tt]. split; [reflexivity|]. split; [repeat constructor|exact H].
    + destruct H as (_ & H & _). congruence.
    + destruct H as (_ & [[_ H]|[H _]]); [congruence|lia].
    + contradiction.
  - apply Forall_app in Hi as [H1 H2]. inversion H2; subst. rewrite app_length in Hl. cbn [length] in Hl.
    destruct (IH H1 ltac:(lia)) as (c & rs & E & Ha & HR). change (k :: is ++ [i]) with ((k :: is) ++ [i]). rewrite run_snoc, E.
    destruct (cache_write c i) as [c1 r] eqn:Ew. destruct (rep_write _ _ _ _ _ _ HR Ew) as [H _].
    destruct (inter_no_panic _ H3) as (K1 & K2). destruct r as [[]|e| |].
    + exists c1, (rs ++ [Ok tt]). split; [reflexivity|]. split; [|exact H]. apply Forall_app. split; [exact Ha|repeat constructor].
    + destruct H as (_ & _ & _ & H). exfalso. unfold gop_full in H. rewrite (gops_key_inters k is Hk H1) in H. cbn [rev app] in H.
      rewrite len_cons in H. unfold len in H. lia.
    + destruct H as (_ & [[_ H]|[H _]]); [congruence|lia].
    + contradiction.
Qed.
(** For every capacity n >= 1 a key frame and 1024 inter frames are all accepted, which makes a GOP of 1025
    packets; one more inter frame is rejected. *)
Theorem C09_bounded_refuted : forall n c0 k is, 0 < n -> new_cache n = Ok c0 -> is_key k = true ->
  Forall (fun p => is_inter p = true) is -> length is = 1024%nat ->
  exists c rs, cache_run c0 (k :: is) = (c, rs) /\ all_ok rs /\
    (forall w, healthy w -> exists w', cache_send c w = (w', Ok tt) /\ pw_out w' = pw_out w ++ k :: is) /\
    len (k :: is) = 1025 /\
    (forall i, is_inter i = true -> exists c', cache_write c i = (c', Err EOther)).
Proof.
  intros n c0 k is Hn Hc Hk Hi Hl. destruct (run_key_inters n c0 k is Hn Hc Hk Hi ltac:(lia)) as (c & rs & E & Ha & HR).
  exists c, rs. split; [exact E|]. split; [exact Ha|].
  assert (HG : gops_of (k :: is) = [k :: is]) by (apply gops_key_inters; assumption).
  split; [|split].
  - intros w Hw. destruct (C08_replays_last_gops _ _ _ _ _ w Hc E Ha Hw) as (w' & E1 & E2). exists w'. split; [exact E1|]. rewrite E2. f_equal.
    unfold replay. rewrite HG. replace (lastn (Z.to_nat n) [k :: is]) with [k :: is].
    + assert (HL : forall f, f k = false -> (forall p, is_inter p = true -> f p = false) -> latest f (k :: is) = None).
      { intros f Hf1 Hf2. clear - Hi Hf1 Hf2. induction is as [|i is IH] using rev_ind.
        - unfold latest. cbn. rewrite Hf1. reflexivity.
        - change (k :: is ++ [i]) with ((k :: is) ++ [i]). apply Forall_app in Hi as [H1 H2]. rewrite latest_snoc. inversion H2; subst.
          rewrite (Hf2 i H3). apply IH. exact H1. }
      assert (HP : forall p, p_type p = 0 -> is_meta p = false /\ is_aac_seq p = false).
      { intros p H. unfold is_meta, is_aac_seq. rewrite H. split; reflexivity. }
      assert (HI : forall p, is_inter p = true -> is_video_seq p = false).
      { unfold is_inter, is_video_seq. intros p H. destruct (p_header p) as [[[v|] a]|]; rewrite ?andb_false_r in *; try discriminate.
        destruct (v_seq v); cbn in *; rewrite ?andb_false_r in *; try discriminate; reflexivity. }
      assert (HKS : is_video_seq k = false).
      { clear - Hk. unfold is_key, is_video_seq in *. destruct (p_header k) as [[[v|] a]|]; rewrite ?andb_false_r in *; try discriminate.
        destruct (v_seq v); cbn in *; rewrite ?andb_false_r in *; try discriminate; reflexivity. }
      assert (HK0 : p_type k = 0) by apply (key_no_panic _ Hk).
      rewrite (HL is_meta), (HL is_video_seq), (HL is_aac_seq); try (apply HP; exact HK0); try exact HKS; try exact HI.
      * cbn. rewrite app_nil_r. reflexivity.
      * intros p Hp. apply HP, (inter_no_panic _ Hp).
      * intros p Hp. apply HP, (inter_no_panic _ Hp).
    + unfold lastn. cbn [length]. replace (1 - Z.to_nat n)%nat with 0%nat by lia. reflexivity.
  - rewrite len_cons. unfold len. lia.
  - intros i Hii. destruct (cache_write c i) as [c' r] eqn:Ew. exists c'. f_equal.
    destruct (rep_write _ _ _ _ _ _ HR Ew) as [H Hf]. destruct (inter_no_panic _ Hii) as (K1 & K2).
    destruct r as [[]|e| |].
    + exfalso. apply (Hf eq_refl Hii ltac:(lia)). unfold gop_full. rewrite HG. cbn [rev app]. rewrite len_cons. unfold len. lia.
    + clear - Ew. unfold cache_write, cache_write_at, cache_write_video, cache_write_audio in Ew.
      repeat match type of Ew with context [if ?b then _ else _] => destruct b | context [match ?x with _ => _ end] => destruct x eqn:? end;
        try discriminate; inversion Ew; subst; try reflexivity;
      match goal with H : gop_write ?g ?p ?b = (_, Err _) |- _ =>
        unfold gop_write, array_write in H;
        repeat match type of H with context [if ?b then _ else _] => destruct b | context [match ?x with _ => _ end] => destruct x eqn:? end;
        try discriminate; inversion H; subst; reflexivity end.
    + destruct H as (_ & [[_ H]|[H _]]); [congruence|lia].
    + contradiction.
Qed.
Print Assumptions C09_bounded_refuted.
Example C09_example : exists c0 is, new_cache 1 = Ok c0 /\ is_key (ex_key [1]) = true /\ Forall (fun p => is_inter p = true) is /\ length is = 1024%nat.
Proof.
  eexists _, (repeat (ex_inter [2]) 1024). split; [reflexivity|]. split; [reflexivity|]. split; [|apply repeat_length].
  apply Forall_forall. intros x Hx. apply repeat_spec in Hx. subst. reflexivity.
Qed.

(** ** C10 *)
Theorem C10_replay_starts_with_key : forall n h c0 c rs w, new_cache n = Ok c0 -> cache_run c0 h = (c, rs) -> healthy w ->
  exists w' hs gs, cache_send c w = (w', Ok tt) /\ pw_out w' = pw_out w ++ hs ++ concat gs /\
    Forall good_gop gs /\
    Forall (fun p => is_meta p = true \/ is_video_seq p = true \/ is_aac_seq p = true) hs.
Proof.
  intros n h c0 c rs w Hn Hr Hw. destruct (run_rep _ _ _ _ _ Hn Hr) as [HR Hl].
  rewrite (rep_send _ _ _ _ HR), healthy_ok by exact Hw. unfold replay.
  eexists _, (opt (latest is_meta _) ++ opt (latest is_video_seq _) ++ opt (latest is_aac_seq _)), (lastn _ _).
  split; [reflexivity|]. cbn [pw_out]. split; [rewrite <- !app_assoc; reflexivity|].
  split; [apply Forall_lastn, gops_of_good|].
  assert (HO : forall f, Forall (fun p => f p = true) (opt (latest f (accepted h rs)))).
  { intros f. destruct (latest f (accepted h rs)) as [p|] eqn:E; cbn; constructor; [|constructor]. unfold latest in E. apply find_some in E. apply E. }
  rewrite !Forall_app. repeat split; (eapply Forall_impl; [|apply HO]); cbn; auto.
Qed.
Print Assumptions C10_replay_starts_with_key.
(** Rejected writes: an inter frame first. *)
Example C10_example : exists c0 c rs, new_cache 2 = Ok c0 /\
  cache_run c0 [ex_inter [1]; ex_key [2]; ex_inter [3]] = (c, rs) /\ rs = [Err EOther; Ok tt; Ok tt] /\
  pw_out (fst (cache_send c ex_pw)) = [ex_key [2]; ex_inter [3]].
Proof. ex_run 2 [ex_inter [1]; ex_key [2]; ex_inter [3]]. split; vm_compute; reflexivity. Qed.

(** ** C11 *)
Theorem C11_rejected_write_no_effect : forall n h c0 c rs p c' e, new_cache n = Ok c0 -> cache_run c0 h = (c, rs) ->
  cache_write c p = (c', Err e) -> forall w, cache_send c' w = cache_send c w.
Proof.
  intros n h c0 c rs p c' e Hn Hr Hw w. destruct (run_rep _ _ _ _ _ Hn Hr) as [HR Hl].
  destruct (rep_write _ _ _ _ _ _ HR Hw) as [(H & _) _]. rewrite (rep_send _ _ _ _ HR), (rep_send _ _ _ _ H). reflexivity.
Qed.
Print Assumptions C11_rejected_write_no_effect.
(** Also after further writes: the replay is always that of the accepted writes alone; and a write is rejected
    exactly when it is an inter frame (of a cache with capacity > 0) with no key frame before it or with a GOP
    of more than 1024 packets to join. *)
Theorem C11_replay_of_accepted : forall n h c0 c rs w, new_cache n = Ok c0 -> cache_run c0 h = (c, rs) -> healthy w ->
  exists w', cache_send c w = (w', Ok tt) /\ pw_out w' = pw_out w ++ replay (Z.to_nat n) (accepted h rs).
Proof.
  intros n h c0 c rs w Hn Hr Hw. destruct (run_rep _ _ _ _ _ Hn Hr) as [HR Hl].
  rewrite (rep_send _ _ _ _ HR), healthy_ok by exact Hw. eexists. split; reflexivity.
Qed.
Print Assumptions C11_replay_of_accepted.
Theorem C11_rejection_condition : forall n h c0 c rs p c' r, new_cache n = Ok c0 -> cache_run c0 h = (c, rs) ->
  cache_write c p = (c', r) ->
  ((exists e, r = Err e) <->
   0 < n /\ is_inter p = true /\
   (gops_of (accepted h rs) = [] \/ exists gs g, gops_of (accepted h rs) = gs ++ [g] /\ 1024 < len g)).
Proof.
  intros n h c0 c rs p c' r Hn Hr Hw. destruct (run_rep _ _ _ _ _ Hn Hr) as [HR Hl].
  destruct (rep_write _ _ _ _ _ _ HR Hw) as [H Hf].
  assert (HF : gop_full (accepted h rs) <-> (gops_of (accepted h rs) = [] \/ exists gs g, gops_of (accepted h rs) = gs ++ [g] /\ 1024 < len g)).
  { unfold gop_full. destruct (snoc_inv (gops_of (accepted h rs))) as [->|(gs & g & ->)].
    - cbn. intuition auto.
    - rewrite rev_app_distr. cbn [rev app]. split; [intros; right; eauto|]. intros [H1|(gs' & g' & H1 & H2)].
      + destruct gs; discriminate.
      + apply app_inj_tail in H1 as [_ ->]. exact H2. }
  split.
  - intros [e ->]. destruct H as (_ & H1 & H2 & H3). split; [lia|]. split; [exact H1|]. apply HF, H3.
  - intros (H1 & H2 & H3). destruct r as [[]|e| |].
    + exfalso. apply (Hf eq_refl H2 ltac:(lia)). apply HF, H3.
    + eauto.
    + destruct (inter_no_panic _ H2) as (K1 & K2). destruct H as (_ & [[_ H]|[H _]]); [congruence|lia].
    + contradiction.
Qed.
Print Assumptions C11_rejection_condition.
Example C11_example : exists c0 c rs, new_cache 1 = Ok c0 /\ cache_run c0 [ex_seq [1]; ex_aac [2]] = (c, rs) /\
  snd (cache_write c (ex_inter [3])) = Err EOther /\
  pw_out (fst (cache_send (fst (cache_write c (ex_inter [3]))) ex_pw)) = [ex_seq [1]; ex_aac [2]].
Proof. ex_run 1 [ex_seq [1]; ex_aac [2]]. split; vm_compute; reflexivity. Qed.

(** ** C12 *)
(** cache_send takes the cache and returns only the writer: the model's SendTo has no way of changing the
    cache; gop.go, array.go and frame.go assign nothing in their Send functions. *)
Theorem C12_send_stops_at_failure : forall n h c0 c rs w k, new_cache n = Ok c0 -> cache_run c0 h = (c, rs) ->
  (k < length (replay (Z.to_nat n) (accepted h rs)))%nat ->
  pw_fails w (pw_calls w + k)%nat = true -> (forall i, (i < k)%nat -> pw_fails w (pw_calls w + i)%nat = false) ->
  cache_send c w = (mkPW (pw_out w ++ firstn k (replay (Z.to_nat n) (accepted h rs))) (pw_calls w + S k) (pw_fails w), Err EWrite).
Proof.
  intros n h c0 c rs w k Hn Hr Hk HF Hi. destruct (run_rep _ _ _ _ _ Hn Hr) as [HR Hl].
  rewrite (rep_send _ _ _ _ HR). apply array_send_fail; assumption.
Qed.
Print Assumptions C12_send_stops_at_failure.
Theorem C12_send_succeeds : forall n h c0 c rs w, new_cache n = Ok c0 -> cache_run c0 h = (c, rs) ->
  (forall i, (i < length (replay (Z.to_nat n) (accepted h rs)))%nat -> pw_fails w (pw_calls w + i)%nat = false) ->
  cache_send c w = (mkPW (pw_out w ++ replay (Z.to_nat n) (accepted h rs))
                         (pw_calls w + length (replay (Z.to_nat n) (accepted h rs))) (pw_fails w), Ok tt).
Proof.
  intros n h c0 c rs w Hn Hr Hi. destruct (run_rep _ _ _ _ _ Hn Hr) as [HR Hl].
  rewrite (rep_send _ _ _ _ HR). apply array_send_ok; assumption.
Qed.
Print Assumptions C12_send_succeeds.
Example C12_example : exists c0 c rs, new_cache 2 = Ok c0 /\ cache_run c0 [ex_seq [1]; ex_key [2]; ex_inter [3]; ex_key [4]] = (c, rs) /\
  cache_send c (mkPW [] 0 (fun i => Nat.eqb i 2)) = (mkPW [ex_seq [1]; ex_key [2]] 3 (fun i => Nat.eqb i 2), Err EWrite).
Proof. ex_run 2 [ex_seq [1]; ex_key [2]; ex_inter [3]; ex_key [4]]. vm_compute. reflexivity. Qed.

(** ** C13 *)
Theorem C13_write_panics_iff : forall n h c0 c rs p c' r, new_cache n = Ok c0 -> cache_run c0 h = (c, rs) ->
  cache_write c p = (c', r) ->
  (r = Panic <-> (p_type p = 0 /\ forall v a, p_header p <> Some (mkH (Some v) a)) \/
                 (p_type p = 1 /\ forall v a, p_header p <> Some (mkH v (Some a)))).
Proof.
  intros n h c0 c rs p c' r Hn Hr Hw. destruct (run_rep _ _ _ _ _ Hn Hr) as [HR Hl].
  destruct (rep_write _ _ _ _ _ _ HR Hw) as [H Hf].
  assert (HV : video_of p = None <-> forall v a, p_header p <> Some (mkH (Some v) a)).
  { unfold video_of. destruct (p_header p) as [[[v|] a]|]; cbn; split; try congruence. intros HH. elim (HH v a eq_refl). }
  assert (HA : audio_of p = None <-> forall v a, p_header p <> Some (mkH v (Some a))).
  { unfold audio_of. destruct (p_header p) as [[v [a|]]|]; cbn; split; try congruence. intros HH. elim (HH v a eq_refl). }
  rewrite <- HV, <- HA. split.
  - intros ->. apply H.
  - intros [[H1 H2]|[H1 H2]]; unfold cache_write, cache_write_at in Hw; rewrite H1 in Hw.
    + change (PktVideo) with 0 in Hw. cbn in Hw. unfold cache_write_video in Hw. rewrite H2 in Hw. congruence.
    + cbn in Hw. unfold cache_write_audio in Hw. rewrite H2 in Hw. congruence.
Qed.
Print Assumptions C13_write_panics_iff.
Theorem C13_no_panic_after_demux : forall n h c0 c rs p p' c' r, new_cache n = Ok c0 -> cache_run c0 h = (c, rs) ->
  demux p = (p', Ok tt) -> cache_write c p' = (c', r) -> r <> Panic.
Proof.
  intros n h c0 c rs p p' c' r Hn Hr Hd Hw HP. apply (proj1 (C13_write_panics_iff _ _ _ _ _ _ _ _ Hn Hr Hw)) in HP.
  unfold demux in Hd. destruct (parse_media_tag_header tag0 (p_data p) (p_type p)) as [t [m|e| |]]; try discriminate.
  destruct (len (p_data p) <? m); [discriminate|]. inversion Hd; subst. unfold set_demuxed, tag_header in HP. cbn in HP.
  destruct HP as [[_ HP]|[_ HP]]; eapply HP; reflexivity.
Qed.
Print Assumptions C13_no_panic_after_demux.
Example C13_example : new_cache 1 = Ok (ex_c 1) /\
  snd (cache_write (ex_c 1) (mkP 0 0 0 0 None [23; 1; 0; 0; 0; 9] None)) = Panic /\
  snd (demux (mkP 0 0 0 0 None [23; 1; 0; 0; 0; 9] None)) = Ok tt /\
  snd (cache_write (ex_c 1) (fst (demux (mkP 0 0 0 0 None [23; 1; 0; 0; 0; 9] None)))) = Ok tt.
Proof. repeat split; vm_compute; reflexivity. Qed.

(** ** C14 *)
(** The calls since the last Reset. *)
Fixpoint since_reset (os : list types_op) : list types_op :=
  match os with
  | [] => []
  | o :: os' => if existsb (fun o => match o with TReset => true | _ => false end) os' then since_reset os'
                else match o with TReset => os' | _ => o :: os' end
  end.
Definition called_video (os : list types_op) : bool := existsb (fun o => match o with TIsVideo => true | _ => false end) os.
Definition called_audio (os : list types_op) : bool := existsb (fun o => match o with TIsAudio => true | _ => false end) os.
Lemma types_bits os : forall t, 0 <= t < 4 ->
  let t' := fold_left types_step os t in
  let reset := existsb (fun o => match o with TReset => true | _ => false end) os in
  0 <= t' < 4 /\
  Z.testbit t' 0 = (negb reset && Z.testbit t 0) || called_video (since_reset os) /\
  Z.testbit t' 1 = (negb reset && Z.testbit t 1) || called_audio (since_reset os).
Proof.
  induction os as [|o os IH]; intros t Ht; cbn [fold_left existsb since_reset].
  - cbn. rewrite !orb_false_r. auto.
  - assert (Hs : 0 <= types_step t o < 4 /\
      Z.testbit (types_step t o) 0 = (match o with TIsVideo => true | TIsAudio => Z.testbit t 0 | TReset => false end) /\
      Z.testbit (types_step t o) 1 = (match o with TIsVideo => Z.testbit t 1 | TIsAudio => true | TReset => false end)).
    { assert (Hc : t = 0 \/ t = 1 \/ t = 2 \/ t = 3) by lia. destruct Hc as [->|[->|[->| ->]]]; destruct o; vm_compute; intuition discriminate. }
    destruct Hs as (H1 & H2 & H3). destruct (IH _ H1) as (I1 & I2 & I3). split; [exact I1|]. rewrite I2, I3, H2, H3.
    destruct (existsb (fun o => match o with TReset => true | _ => false end) os) eqn:E.
    + rewrite orb_true_r. cbn. auto.
    + rewrite orb_false_r. assert (ES : since_reset os = os).
      { destruct os as [|o' os']; [reflexivity|]. cbn [since_reset existsb] in *. apply orb_false_elim in E as [E1 E2]. rewrite E2. destruct o'; congruence. }
      rewrite ES. destruct o; cbn; destruct (Z.testbit t 0), (Z.testbit t 1); cbn; rewrite ?orb_true_r, ?orb_false_r; split; reflexivity.
Qed.
Theorem C14_types_to_slice : forall os,
  types_to_slice (fold_left types_step os new_types) =
    (if called_video (since_reset os) then [PktVideo] else []) ++ (if called_audio (since_reset os) then [PktAudio] else []).
Proof.
  intros os. destruct (types_bits os 0 ltac:(lia)) as (H1 & H2 & H3). change new_types with 0.
  set (t := fold_left types_step os 0) in *. rewrite Z.bits_0, andb_false_r in H2, H3. cbn [orb] in H2, H3.
  rewrite <- H2, <- H3. clearbody t. assert (Hc : t = 0 \/ t = 1 \/ t = 2 \/ t = 3) by lia.
  destruct Hc as [->|[->|[->| ->]]]; reflexivity.
Qed.
Print Assumptions C14_types_to_slice.
Example C14_example : types_to_slice (fold_left types_step [TIsVideo; TReset; TIsAudio; TIsAudio] new_types) = [PktAudio].
Proof. reflexivity. Qed.
