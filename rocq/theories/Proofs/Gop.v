(** The ring buffer of gop.go refines "the last N GOPs". *)
From Verif Require Import Base.Go Base.GoFacts Model.Packet Model.Gop Spec.Gop.
Local Ltac Zify.zify_post_hook ::= Z.div_mod_to_equations.

(** ** Lists *)
Lemma skipn_S_tl {A} k : forall l : list A, skipn (S k) l = tl (skipn k l).
Proof. induction k as [|k IH]; intros [|x l]; try reflexivity. cbn [skipn]. rewrite <- IH. reflexivity. Qed.
Lemma lastn_app1 {A} (n : nat) (l : list A) x : (0 < n)%nat ->
  lastn n (l ++ [x]) = (if (length (lastn n l) <? n)%nat then lastn n l else tl (lastn n l)) ++ [x].
Proof.
  intros Hn. unfold lastn. rewrite app_length, skipn_length. cbn [length].
  destruct (Nat.ltb_spec (length l - (length l - n)) n) as [H|H].
  - replace (length l - n)%nat with 0%nat by lia. replace (length l + 1 - n)%nat with 0%nat by lia. reflexivity.
  - replace (length l + 1 - n)%nat with (S (length l - n))%nat by lia.
    rewrite skipn_app. replace (S (length l - n) - length l)%nat with 0%nat by lia. cbn [skipn].
    f_equal. apply skipn_S_tl.
Qed.
Lemma lastn_length {A} n (l : list A) : (length (lastn n l) <= n)%nat.
Proof. unfold lastn. rewrite skipn_length. lia. Qed.
Lemma lastn_nil {A} n : lastn n (@nil A) = []. Proof. unfold lastn. apply skipn_nil. Qed.
Lemma lastn_0 {A} (l : list A) : lastn 0 l = [].
Proof. unfold lastn. rewrite Nat.sub_0_r. apply skipn_all. Qed.

Lemma app_last_snoc {A} (l : list (list A)) g x : app_last (l ++ [g]) x = l ++ [g ++ [x]].
Proof.
  induction l as [|a l IH]; [reflexivity|]. cbn [app]. rewrite <- IH. destruct (l ++ [g]) eqn:E; [|reflexivity].
  destruct l; discriminate.
Qed.
Lemma app_last_nil {A} (x : A) : app_last [] x = []. Proof. reflexivity. Qed.

Lemma snoc_inv {A} (l : list A) : l = [] \/ exists l' x, l = l' ++ [x].
Proof. destruct l as [|a l] using rev_ind; [left; reflexivity|right; eauto]. Qed.

Lemma lastn_snoc {A} n (l : list A) x : lastn (S n) (l ++ [x]) = lastn n l ++ [x].
Proof.
  unfold lastn. rewrite app_length. cbn [length]. replace (length l + 1 - S n)%nat with (length l - n)%nat by lia.
  rewrite skipn_app. replace (length l - n - length l)%nat with 0%nat by lia. reflexivity.
Qed.
Lemma lastn_app_last {A} n (l : list (list A)) x : lastn n (app_last l x) = app_last (lastn n l) x.
Proof.
  destruct (snoc_inv l) as [->|(l' & g & ->)]; [rewrite lastn_nil; reflexivity|].
  destruct n as [|n]; [rewrite !lastn_0; reflexivity|].
  rewrite app_last_snoc, !lastn_snoc, app_last_snoc. reflexivity.
Qed.

(** ** The ring. [A] are the GOPs in physical slots 0..index, [B] the older ones after it. *)
Record ring {X} (N : nat) (g : gops_of_type X) (A B : list (list X)) : Prop := {
  ring_pos : (0 < N)%nat;
  ring_cap : g_cap g = Z.of_nat N;
  ring_index : g_index g = len A - 1;
  ring_len : g_len g = len A + len B;
  ring_le : (length A + length B <= N)%nat;
  ring_full : B = [] \/ (length A + length B = N)%nat;
  ring_some : A = [] -> B = [];
  ring_gops : g_gops g = map Some (A ++ B) ++ repeat None (N - (length A + length B)) }.

Lemma set_slot_mid {X} (l : list (option (list X))) x r i a : i = len l -> set_slot (l ++ x :: r) i a = l ++ Some a :: r.
Proof.
  intros ->. unfold set_slot, len. rewrite Nat2Z.id. rewrite firstn_app_len. f_equal. f_equal.
  change (x :: r) with ([x] ++ r). rewrite app_assoc.
  replace (S (length l)) with (length (l ++ [x])) by (rewrite app_length; cbn; lia). apply skipn_app_len.
Qed.
Lemma slot_mid {X} (l : list (option (list X))) x r i : i = len l -> slot (l ++ x :: r) i = Ok x.
Proof.
  intros ->. unfold slot. rewrite len_app, len_cons. pose proof (len_nonneg l). pose proof (len_nonneg r).
  replace ((0 <=? len l) && (len l <? len l + (1 + len r))) with true by lia.
  unfold len. rewrite Nat2Z.id, nth_middle. reflexivity.
Qed.

Lemma ring_total {X} N (g : gops_of_type X) A B : ring N g A B -> (g_cap g <=? 0) || (len (g_gops g) <=? 0) = false.
Proof.
  intros H. pose proof (ring_pos _ _ _ _ H) as HN. rewrite (ring_cap _ _ _ _ H), (ring_gops _ _ _ _ H).
  pose proof (ring_le _ _ _ _ H). rewrite len_app, len_map, len_app, len_repeat. unfold len. lia.
Qed.

Lemma array_write_nil {X} (p : X) : array_write [] p = ([p], Ok tt). Proof. reflexivity. Qed.

(** A key frame opens a GOP and drops the oldest one if the ring is full. *)
Lemma ring_create {X} N (g : gops_of_type X) A B p : ring N g A B ->
  exists g' A' B', gop_write g p true = (g', Ok tt) /\ ring N g' A' B' /\
    B' ++ A' = (if (length (B ++ A) <? N)%nat then B ++ A else tl (B ++ A)) ++ [[p]].
Proof.
  intros H. pose proof H as [HN Hc Hi Hl Hle Hf Hs Hg]. unfold gop_write. rewrite (ring_total _ _ _ _ H).
  rewrite Hc, Hi. replace (len A - 1 + 1) with (len A) by lia. rewrite app_length.
  destruct (Nat.ltb_spec (length B + length A) N) as [Hlt|Hge].
  - (* a free slot *)
    assert (B = []) by (destruct Hf as [|Hf]; [assumption|lia]). subst B.
    cbn [length] in *. rewrite app_nil_r in *. cbn [app] in *.
    rewrite (Z.mod_small (len A)) by (unfold len; lia).
    destruct (N - (length A + 0))%nat as [|k] eqn:Ek; [lia|]. cbn [repeat] in Hg.
    rewrite Hg. rewrite slot_mid by (rewrite len_map; reflexivity). rewrite array_write_nil.
    rewrite set_slot_mid by (rewrite len_map; reflexivity).
    eexists _, (A ++ [[p]]), []. split; [reflexivity|]. split; [|cbn [app]; reflexivity].
    constructor; cbn [g_cap g_index g_len g_gops]; try assumption; try reflexivity.
    + rewrite len_app. unfold len in *; cbn [length] in *; lia.
    + rewrite Hl, len_app. unfold len in *; cbn [length] in *; lia.
    + rewrite app_length. cbn [length]. lia.
    + left; reflexivity.
    + rewrite app_nil_r, map_app, <- app_assoc. cbn [map app]. rewrite app_length. cbn [length].
      replace (N - (length A + 1 + 0))%nat with k by lia. reflexivity.
  - (* full: the slot after the current one holds the oldest GOP *)
    assert (HE : (length A + length B = N)%nat) by lia. rewrite HE, Nat.sub_diag in Hg. cbn [repeat] in Hg. rewrite app_nil_r in Hg.
    destruct B as [|b B].
    + cbn [length] in HE. rewrite app_nil_r in *. cbn [app].
      destruct A as [|a A]; [cbn [length] in HE; lia|].
      replace (len (a :: A) mod Z.of_nat N) with 0 by (unfold len; replace (length (a :: A)) with N by lia; rewrite Z_mod_same_full; reflexivity).
      rewrite Hg. cbn [map]. change (Some a :: map Some A) with ([] ++ Some a :: map Some A).
      rewrite slot_mid by reflexivity. rewrite array_write_nil.
      rewrite set_slot_mid by reflexivity.
      eexists _, [[p]], A. split; [reflexivity|]. split; [|reflexivity].
      cbn [length] in HE.
      constructor; cbn [g_cap g_index g_len g_gops]; try assumption; try reflexivity.
      * rewrite Hl, len_cons. unfold len in *; cbn [length] in *; lia.
      * cbn [length]. lia.
      * right. cbn [length]. lia.
      * discriminate.
      * cbn [length app map]. replace (N - (1 + length A))%nat with 0%nat by lia. cbn [repeat]. rewrite app_nil_r. reflexivity.
    + cbn [length] in HE. rewrite map_app in Hg. cbn [map] in Hg.
      rewrite (Z.mod_small (len A)) by (unfold len; lia).
      rewrite Hg. rewrite slot_mid by (rewrite len_map; reflexivity). rewrite array_write_nil.
      rewrite set_slot_mid by (rewrite len_map; reflexivity).
      eexists _, (A ++ [[p]]), B. split; [reflexivity|]. split; [|cbn [app tl]; rewrite app_assoc; reflexivity].
      constructor; cbn [g_cap g_index g_len g_gops]; try assumption; try reflexivity.
      * rewrite len_app. unfold len in *; cbn [length] in *; lia.
      * rewrite Hl, len_app, len_cons. unfold len in *; cbn [length] in *; lia.
      * rewrite app_length. cbn [length]. lia.
      * right. rewrite app_length. cbn [length]. lia.
      * intros E. destruct A; discriminate.
      * rewrite app_length. cbn [length]. replace (N - (length A + 1 + length B))%nat with 0%nat by lia. cbn [repeat].
        rewrite app_nil_r, <- app_assoc. cbn [app]. rewrite map_app. reflexivity.
Qed.

(** An inter frame joins the newest GOP, if there is one and it has room. *)
Lemma ring_inter {X} N (g : gops_of_type X) A B p : ring N g A B ->
  match rev A with
  | [] => gop_write g p false = (g, Err EOther)
  | a :: _ => if 1024 <? len a then exists g', gop_write g p false = (g', Err EOther) /\ ring N g' A B
              else exists g' A', gop_write g p false = (g', Ok tt) /\ ring N g' A' B /\ A' = app_last A p
  end.
Proof.
  intros H. pose proof H as [HN Hc Hi Hl Hle Hf Hs Hg]. unfold gop_write. rewrite (ring_total _ _ _ _ H).
  destruct (snoc_inv A) as [->|(A0 & a & ->)].
  - cbn [rev]. rewrite Hi. reflexivity.
  - rewrite rev_app_distr. cbn [rev app]. rewrite len_app in Hi. change (len [a]) with 1 in Hi.
    pose proof (len_nonneg A0). replace (g_index g <? 0) with false by lia.
    assert (Hg' : g_gops g = map Some A0 ++ Some a :: (map Some B ++ repeat None (N - (length (A0 ++ [a]) + length B)))).
    { rewrite Hg, !map_app, <- !app_assoc. cbn [map app]. reflexivity. }
    rewrite Hg'. rewrite slot_mid by (rewrite len_map; lia). unfold array_write. change maxGop with 1024.
    destruct (1024 <? len a) eqn:E.
    + rewrite set_slot_mid by (rewrite len_map; lia). eexists. split; [reflexivity|].
      constructor; cbn [g_cap g_index g_len g_gops]; try assumption; try reflexivity.
      * rewrite len_app. unfold len in *; cbn [length] in *; lia.
      * rewrite <- Hg'. exact Hg.
    + rewrite set_slot_mid by (rewrite len_map; lia). eexists _, (A0 ++ [a ++ [p]]). split; [reflexivity|].
      rewrite app_last_snoc. split; [|reflexivity].
      rewrite app_length in *. cbn [length] in *.
      constructor; cbn [g_cap g_index g_len g_gops]; try assumption; try reflexivity.
      * rewrite len_app. unfold len in *; cbn [length] in *; lia.
      * rewrite Hl, !len_app. reflexivity.
      * rewrite app_length. cbn [length]. exact Hle.
      * rewrite app_length. cbn [length]. exact Hf.
      * intros E2. destruct A0; discriminate.
      * rewrite app_length. cbn [length]. rewrite !map_app, <- !app_assoc. cbn [map app]. reflexivity.
Qed.

(** ** Sending *)
Lemma array_send_app {X S} wr (a b : list X) (w : S) : array_send wr (a ++ b) w = pseq (array_send wr a w) (array_send wr b).
Proof.
  revert w; induction a as [|p a IH]; intros w; cbn [array_send app]; [reflexivity|].
  destruct (wr p w) as [w' [u|e| |]]; try reflexivity. apply IH.
Qed.
Lemma array_send_opt {X S} wr (o : option X) (w : S) : frame_send wr o w = array_send wr (opt o) w.
Proof. destruct o as [p|]; cbn; [|reflexivity]. destruct (wr p w) as [w' [[]|e| |]]; reflexivity. Qed.
Lemma pseq_ext {S} (r : S * res unit) k k' : (forall w, k w = k' w) -> pseq r k = pseq r k'.
Proof. intros H. destruct r as [w [u|e| |]]; cbn; auto. Qed.

Lemma send_loop {X S0} (wr : X -> S0 -> S0 * res unit) l : forall base i g w,
  (forall j, (j < length l)%nat -> slot (g_gops g) ((base + (i + Z.of_nat j)) mod g_len g) = Ok (Some (nth j l []))) ->
  gop_send_loop wr (length l) base i g w = array_send wr (concat l) w.
Proof.
  induction l as [|a l IH]; intros base i g w Hs; cbn [length gop_send_loop concat]; [reflexivity|].
  pose proof (Hs 0%nat ltac:(cbn; lia)) as H0. rewrite Nat2Z.inj_0, Z.add_0_r in H0. cbn [nth] in H0. rewrite H0.
  rewrite array_send_app. destruct (array_send wr a w) as [w' [u|e| |]]; cbn [pseq]; try reflexivity.
  apply IH. intros j Hj. specialize (Hs (S j) ltac:(cbn; lia)). cbn [nth] in Hs. rewrite <- Hs. do 2 f_equal. lia.
Qed.

Lemma slot_nth {X} (l : list (option (list X))) i x : (i < length l)%nat -> nth i l None = x -> slot l (Z.of_nat i) = Ok x.
Proof.
  intros Hi Hx. unfold slot, len. replace ((0 <=? Z.of_nat i) && (Z.of_nat i <? Z.of_nat (length l))) with true by lia.
  rewrite Nat2Z.id, Hx. reflexivity.
Qed.

Lemma ring_send {X S0} (wr : X -> S0 -> S0 * res unit) N g A B w : ring N g A B -> gop_send wr g w = array_send wr (concat (B ++ A)) w.
Proof.
  intros [HN Hc Hi Hl Hle Hf Hs Hg]. unfold gop_send. rewrite Hc, Hl, Hi.
  destruct A as [|a0 A0] eqn:EA.
  - rewrite (Hs eq_refl). replace ((Z.of_nat N <=? 0) || _) with true by (unfold len; cbn [length]; lia). reflexivity.
  - rewrite <- EA in *. assert (HA : (0 < length A)%nat) by (rewrite EA; cbn; lia). clear EA a0 A0.
    replace ((Z.of_nat N <=? 0) || (len A + len B <=? 0)) with false by (unfold len; lia).
    replace (Z.to_nat (len A + len B)) with (length (B ++ A)) by (rewrite app_length; unfold len; lia).
    apply send_loop. intros j Hj. rewrite app_length in Hj. rewrite Hl.
    assert (Hrep : (length (g_gops g) = N)%nat).
    { rewrite Hg, app_length, map_length, repeat_length, app_length. lia. }
    destruct (Nat.ltb_spec j (length B)) as [HjB|HjB].
    + assert (HB : (0 < length B)%nat) by lia.
      replace (((len A - 1 + 1) mod (len A + len B) + (0 + Z.of_nat j)) mod (len A + len B)) with (Z.of_nat (length A + j)).
      2:{ replace (len A - 1 + 1) with (len A) by lia. rewrite (Z.mod_small (len A)) by (unfold len; lia).
          rewrite Z.mod_small by (unfold len; lia). unfold len; lia. }
      apply slot_nth; [lia|]. rewrite Hg. rewrite app_nth1 by (rewrite map_length, app_length; lia).
      rewrite map_app, app_nth2 by (rewrite map_length; lia). rewrite map_length.
      replace (length A + j - length A)%nat with j by lia.
      rewrite (nth_indep _ None (Some []) ) by (rewrite map_length; lia). rewrite (map_nth Some). rewrite app_nth1 by lia. reflexivity.
    + assert (Hm : ((len A - 1 + 1) mod (len A + len B) + (0 + Z.of_nat j)) mod (len A + len B) = Z.of_nat (j - length B)).
      { replace (len A - 1 + 1) with (len A) by lia. destruct B as [|b B].
        - cbn [length] in *. change (len (@nil (list X))) with 0. rewrite Z.add_0_r, Z_mod_same_full, Z.mod_small by (unfold len; lia). lia.
        - rewrite (Z.mod_small (len A)) by (unfold len; cbn [length]; lia).
          symmetry. apply Z.mod_unique with 1; unfold len in *; cbn [length] in *; lia. }
      rewrite Hm. apply slot_nth; [lia|]. rewrite Hg. rewrite app_nth1 by (rewrite map_length, app_length; lia).
      rewrite map_app, app_nth1 by (rewrite map_length; lia).
      rewrite (nth_indep _ None (Some [])) by (rewrite map_length; lia). rewrite (map_nth Some). rewrite app_nth2 by lia. reflexivity.
Qed.

(** What an array send does on any packet writer. *)
Lemma array_send_ok l w : (forall i, (i < length l)%nat -> pw_fails w (pw_calls w + i)%nat = false) ->
  array_send pwrite l w = (mkPW (pw_out w ++ l) (pw_calls w + length l) (pw_fails w), Ok tt).
Proof.
  revert w; induction l as [|p l IH]; intros w H; cbn [array_send].
  - rewrite app_nil_r, Nat.add_0_r. destruct w; reflexivity.
  - unfold pwrite. pose proof (H 0%nat ltac:(cbn; lia)) as H0. rewrite Nat.add_0_r in H0. rewrite H0.
    rewrite IH; cbn [pw_out pw_calls pw_fails].
    + rewrite <- app_assoc. cbn [app length]. f_equal. f_equal. lia.
    + intros i Hi. specialize (H (S i) ltac:(cbn; lia)). rewrite <- H. f_equal. lia.
Qed.
Lemma array_send_fail l w k : (k < length l)%nat -> pw_fails w (pw_calls w + k)%nat = true ->
  (forall i, (i < k)%nat -> pw_fails w (pw_calls w + i)%nat = false) ->
  array_send pwrite l w = (mkPW (pw_out w ++ firstn k l) (pw_calls w + S k) (pw_fails w), Err EWrite).
Proof.
  revert w k; induction l as [|p l IH]; intros w k Hk HF H; cbn [length] in Hk; [lia|].
  cbn [array_send]. unfold pwrite. destruct k as [|k].
  - rewrite Nat.add_0_r in HF. rewrite HF. cbn [firstn]. rewrite app_nil_r. f_equal. f_equal. lia.
  - pose proof (H 0%nat ltac:(lia)) as H0. rewrite Nat.add_0_r in H0. rewrite H0.
    rewrite (IH _ k); cbn [pw_out pw_calls pw_fails].
    + cbn [firstn]. rewrite <- app_assoc. cbn [app]. f_equal. f_equal. lia.
    + lia.
    + rewrite <- HF. f_equal. lia.
    + intros i Hi. specialize (H (S i) ltac:(lia)). rewrite <- H. f_equal. lia.
Qed.

(** ** The cache and its history *)
Lemma latest_snoc {A} f (h : list A) p : latest f (h ++ [p]) = if f p then Some p else latest f h.
Proof. unfold latest. rewrite rev_app_distr. reflexivity. Qed.
Lemma gops_at_snoc {X} (v : X -> packet) h p : gops_at v (h ++ [p]) = gop_step_at v (gops_at v h) p.
Proof. unfold gops_at. rewrite fold_left_app. reflexivity. Qed.
Lemma gops_of_snoc h p : gops_of (h ++ [p]) = gop_step (gops_of h) p.
Proof. unfold gops_of. rewrite fold_left_app. reflexivity. Qed.

Record Rep_at {X} (v : X -> packet) (N : nat) (c : cache_of_type X) (h : list X) : Prop := {
  rep_meta : c_meta c = latest (fun a => is_meta (v a)) h;
  rep_video : c_video c = latest (fun a => is_video_seq (v a)) h;
  rep_audio : c_audio c = latest (fun a => is_aac_seq (v a)) h;
  rep_gop : (N = 0%nat /\ g_cap (c_gop c) = 0) \/
            exists A B, ring N (c_gop c) A B /\ B ++ A = lastn N (gops_at v h) }.
Definition Rep := @Rep_at packet (fun p => p).

Lemma rep_new_at {X} (v : X -> packet) n c : new_cache_of n = Ok c -> Rep_at v (Z.to_nat n) c [].
Proof.
  unfold new_cache_of, new_gops. destruct (n <? 0) eqn:E; [discriminate|]. intros H; inversion H; subst.
  constructor; try reflexivity. destruct (Z.eq_dec n 0) as [->|Hn]; [left; split; reflexivity|right].
  exists [], []. split; [|symmetry; apply (@lastn_nil (list X))].
  constructor; cbn; try lia; auto. rewrite Nat.sub_0_r. reflexivity.
Qed.
Lemma rep_new n c : new_cache n = Ok c -> Rep (Z.to_nat n) c [].
Proof. apply rep_new_at. Qed.

Definition gop_full_at {X} (v : X -> packet) (h : list X) : Prop :=
  match rev (gops_at v h) with [] => True | g :: _ => 1024 < len g end.
Definition gop_full (h : list packet) : Prop :=
  match rev (gops_of h) with [] => True | g :: _ => 1024 < len g end.

Lemma is_key_eq p vh : p_type p = 0 -> video_of p = Some vh -> is_key p = negb (v_seq vh) && v_key vh.
Proof. intros H1 H2. unfold is_key, video_of in *. rewrite H1. cbn. destruct (p_header p) as [[v a]|]; [|discriminate]. cbn in H2. subst. reflexivity. Qed.
Lemma is_inter_eq p vh : p_type p = 0 -> video_of p = Some vh -> is_inter p = negb (v_seq vh) && negb (v_key vh) && v_inter vh.
Proof. intros H1 H2. unfold is_inter, video_of in *. rewrite H1. cbn. destruct (p_header p) as [[v a]|]; [|discriminate]. cbn in H2. subst. reflexivity. Qed.
Lemma is_vseq_eq p vh : p_type p = 0 -> video_of p = Some vh -> is_video_seq p = v_seq vh.
Proof. intros H1 H2. unfold is_video_seq, video_of in *. rewrite H1. cbn. destruct (p_header p) as [[v a]|]; [|discriminate]. cbn in H2. subst. reflexivity. Qed.
Lemma not_video p : p_type p <> 0 -> is_key p = false /\ is_inter p = false /\ is_video_seq p = false.
Proof. intros H. unfold is_key, is_inter, is_video_seq. replace (p_type p =? 0) with false by lia. auto. Qed.
Lemma is_aseq_eq p ah : p_type p = 1 -> audio_of p = Some ah -> is_aac_seq p = a_aac ah && a_seq ah.
Proof. intros H1 H2. unfold is_aac_seq, audio_of in *. rewrite H1. cbn. destruct (p_header p) as [[v a]|]; [|discriminate]. cbn in H2. subst. reflexivity. Qed.

Lemma last_lastn {A} N (l : list A) B A' : (0 < N)%nat -> B ++ A' = lastn N l -> (A' = [] -> B = []) ->
  match rev A' with [] => l = [] | a :: _ => exists r, rev l = a :: r end.
Proof.
  intros HN HE Hs. destruct (snoc_inv l) as [->|(l' & x & ->)].
  - rewrite lastn_nil in HE. apply app_eq_nil in HE as [-> ->]. reflexivity.
  - destruct N as [|N]; [lia|]. rewrite lastn_snoc in HE.
    destruct (snoc_inv A') as [->|(A2 & y & ->)].
    + rewrite (Hs eq_refl) in HE. destruct (lastn N l'); discriminate.
    + rewrite app_assoc in HE. apply app_inj_tail in HE as [_ ->]. rewrite !rev_app_distr. cbn. eauto.
Qed.

(** One write: accepted packets extend the history, rejected ones leave the represented history as it is. *)
Lemma rep_write_at {X} (v : X -> packet) N c h p c' r : Rep_at v N c h -> cache_write_at v c p = (c', r) ->
  match r with
  | Ok _ => Rep_at v N c' (h ++ [p])
  | Err _ => Rep_at v N c' h /\ is_inter (v p) = true /\ (0 < N)%nat /\ gop_full_at v h
  | Panic => Rep_at v N c' h /\ ((p_type (v p) = 0 /\ video_of (v p) = None) \/ (p_type (v p) = 1 /\ audio_of (v p) = None))
  | OutOfFuel => False
  end /\ (r = Ok tt -> is_inter (v p) = true -> (0 < N)%nat -> ~ gop_full_at v h).
Proof.
  intros [Rm Rv Ra Rg] E. unfold cache_write_at in E. change PktVideo with 0 in E. change PktAudio with 1 in E. change PktMetadata with 2 in E.
  destruct (p_type (v p) =? 0) eqn:T0.
  { assert (HT : p_type (v p) = 0) by lia. unfold cache_write_video in E.
    assert (Hm : is_meta (v p) = false) by (unfold is_meta; lia).
    assert (Ha : is_aac_seq (v p) = false) by (unfold is_aac_seq; rewrite HT; reflexivity).
    destruct (video_of (v p)) as [vh|] eqn:Ev.
    2:{ inversion E; subst. split; [|discriminate]. split; [constructor; assumption|]. left; auto. }
    pose proof (is_key_eq (v p) vh HT Ev) as Hk. pose proof (is_inter_eq (v p) vh HT Ev) as Hi. pose proof (is_vseq_eq (v p) vh HT Ev) as Hs.
    destruct (v_seq vh) eqn:Es.
    { inversion E; subst. cbn in Hk, Hi. split; [|congruence]. constructor; cbn [c_meta c_video c_audio c_gop].
      - rewrite latest_snoc, Hm. exact Rm.
      - rewrite latest_snoc, Hs. reflexivity.
      - rewrite latest_snoc, Ha. exact Ra.
      - destruct Rg as [Rg|(A & B & R1 & R2)]; [left; exact Rg|right]. exists A, B. split; [exact R1|].
        rewrite gops_at_snoc. unfold gop_step_at. rewrite Hk, Hi. exact R2. }
    cbn [negb andb] in Hk, Hi.
    destruct (v_key vh) eqn:Ek.
    { cbn [orb] in E. cbn in Hi. destruct Rg as [(-> & Rg)|(A & B & R1 & R2)].
      - unfold gop_write in E. rewrite Rg in E. cbn in E. inversion E; subst. split; [|congruence].
        constructor; cbn [c_meta c_video c_audio c_gop]; rewrite ?latest_snoc, ?Hm, ?Hs, ?Ha; try assumption. left; auto.
      - destruct (ring_create N _ A B p R1) as (g' & A' & B' & W1 & W2 & W3). rewrite W1 in E. inversion E; subst.
        split; [|congruence].
        constructor; cbn [c_meta c_video c_audio c_gop]; rewrite ?latest_snoc, ?Hm, ?Hs, ?Ha; try assumption.
        right. exists A', B'. split; [exact W2|]. rewrite W3, gops_at_snoc. unfold gop_step_at. rewrite Hk.
        rewrite lastn_app1 by apply (ring_pos _ _ _ _ R1). rewrite R2. reflexivity. }
    cbn [orb] in E. cbn [negb andb] in Hi. destruct (v_inter vh) eqn:Ei.
    2:{ inversion E; subst. split; [|congruence]. constructor; rewrite ?latest_snoc, ?Hm, ?Hs, ?Ha; try assumption.
        destruct Rg as [Rg|(A & B & R1 & R2)]; [left; exact Rg|right]. exists A, B. split; [exact R1|].
        rewrite gops_at_snoc. unfold gop_step_at. rewrite Hk, Hi. exact R2. }
    destruct Rg as [(-> & Rg)|(A & B & R1 & R2)].
    { unfold gop_write in E. rewrite Rg in E. cbn in E. inversion E; subst. split; [|lia].
      constructor; cbn [c_meta c_video c_audio c_gop]; rewrite ?latest_snoc, ?Hm, ?Hs, ?Ha; try assumption. left; auto. }
    pose proof (ring_inter N _ A B p R1) as W. pose proof (last_lastn N (gops_at v h) B A (ring_pos _ _ _ _ R1) R2 (ring_some _ _ _ _ R1)) as HL.
    destruct (rev A) as [|a rA] eqn:ErA.
    { rewrite W in E. inversion E; subst. split; [|discriminate]. split.
      - constructor; cbn [c_meta c_video c_audio c_gop]; try assumption. right. eauto.
      - split; [exact Hi|]. split; [exact (ring_pos _ _ _ _ R1)|]. unfold gop_full_at. rewrite HL. exact I. }
    destruct HL as [rl Hrl]. destruct (1024 <? len a) eqn:El.
    { destruct W as (g' & W1 & W2). rewrite W1 in E. inversion E; subst. split; [|discriminate]. split.
      - constructor; cbn [c_meta c_video c_audio c_gop]; try assumption. right. eauto.
      - split; [exact Hi|]. split; [exact (ring_pos _ _ _ _ R1)|]. unfold gop_full_at. rewrite Hrl. lia. }
    destruct W as (g' & A' & W1 & W2 & W3). rewrite W1 in E. inversion E; subst c' r. split.
    2:{ intros _ _ _. unfold gop_full_at. rewrite Hrl. lia. }
    constructor; cbn [c_meta c_video c_audio c_gop]; rewrite ?latest_snoc, ?Hm, ?Hs, ?Ha; try assumption.
    right. exists A', B. split; [exact W2|]. rewrite gops_at_snoc. unfold gop_step_at. rewrite Hk, Hi, lastn_app_last, <- R2, W3.
    destruct (snoc_inv A) as [->|(A0 & x & ->)]; [discriminate|].
    rewrite app_last_snoc, !app_assoc, app_last_snoc. reflexivity. }
  destruct (not_video (v p) ltac:(lia)) as (Hk & Hi & Hs).
  assert (Hgs : gop_step_at v (gops_at v h) p = gops_at v h) by (unfold gop_step_at; rewrite Hk, Hi; reflexivity).
  assert (Rg' : forall c2 : cache_of_type X, c_gop c2 = c_gop c -> (N = 0%nat /\ g_cap (c_gop c2) = 0) \/ exists A B, ring N (c_gop c2) A B /\ B ++ A = lastn N (gops_at v (h ++ [p]))).
  { intros c2 Hc2. rewrite Hc2, gops_at_snoc, Hgs. exact Rg. }
  destruct (p_type (v p) =? 1) eqn:T1.
  { unfold cache_write_audio in E. destruct (audio_of (v p)) as [ah|] eqn:Ea.
    2:{ inversion E; subst. split; [|discriminate]. split; [constructor; assumption|]. right. split; [lia|reflexivity]. }
    assert (Hm : is_meta (v p) = false) by (unfold is_meta; lia). pose proof (is_aseq_eq (v p) ah ltac:(lia) Ea) as Ha.
    destruct (a_aac ah && a_seq ah); inversion E; subst; (split; [|congruence]);
      constructor; cbn [c_meta c_video c_audio]; rewrite ?latest_snoc, ?Hm, ?Hs, ?Ha; try assumption; try reflexivity; apply Rg'; reflexivity. }
  assert (Ha : is_aac_seq (v p) = false) by (unfold is_aac_seq; rewrite T1; reflexivity).
  destruct (p_type (v p) =? 2) eqn:T2; inversion E; subst; (split; [|congruence]);
    constructor; cbn [c_meta c_video c_audio]; rewrite ?latest_snoc, ?Hs, ?Ha; unfold is_meta; rewrite ?T2; try assumption; try reflexivity; apply Rg'; reflexivity.
Qed.

Lemma rep_write N c h p c' r : Rep N c h -> cache_write c p = (c', r) ->
  match r with
  | Ok _ => Rep N c' (h ++ [p])
  | Err _ => Rep N c' h /\ is_inter p = true /\ (0 < N)%nat /\ gop_full h
  | Panic => Rep N c' h /\ ((p_type p = 0 /\ video_of p = None) \/ (p_type p = 1 /\ audio_of p = None))
  | OutOfFuel => False
  end /\ (r = Ok tt -> is_inter p = true -> (0 < N)%nat -> ~ gop_full h).
Proof. apply (rep_write_at (fun p => p)). Qed.

Lemma rep_run N h : forall c h0 c' rs, Rep N c h0 -> cache_run c h = (c', rs) -> Rep N c' (h0 ++ accepted h rs) /\ length rs = length h.
Proof.
  induction h as [|p h IH]; intros c h0 c' rs HR E; cbn [cache_run] in E.
  - inversion E; subst. cbn. rewrite app_nil_r. auto.
  - destruct (cache_write c p) as [c1 r] eqn:E1. destruct (cache_run c1 h) as [c2 rs2] eqn:E2. inversion E; subst.
    destruct (rep_write N c h0 p c1 r HR E1) as [H _]. destruct r as [u|e| |]; cbn [accepted length].
    + destruct (IH _ _ _ _ H E2) as [H1 H2]. rewrite <- app_assoc in H1. split; [exact H1|lia].
    + destruct (IH _ _ _ _ (proj1 H) E2) as [H1 H2]. split; [exact H1|lia].
    + destruct (IH _ _ _ _ (proj1 H) E2) as [H1 H2]. split; [exact H1|lia].
    + contradiction.
Qed.

Lemma rep_send_at {X S0} (v : X -> packet) (wr : X -> S0 -> S0 * res unit) N c h w : Rep_at v N c h -> cache_send_to wr c w = array_send wr (replay_at v N h) w.
Proof.
  intros [Rm Rv Ra Rg]. unfold cache_send_to, replay_at. rewrite Rm, Rv, Ra.
  rewrite !array_send_app, array_send_opt. apply pseq_ext. intros w1.
  rewrite !array_send_app, array_send_opt. apply pseq_ext. intros w2.
  rewrite !array_send_app, array_send_opt. apply pseq_ext. intros w3.
  destruct Rg as [(-> & Rg)|(A & B & R1 & R2)].
  - unfold gop_send. rewrite Rg. cbn. rewrite lastn_0. reflexivity.
  - rewrite (ring_send wr _ _ _ _ _ R1), R2. reflexivity.
Qed.
Lemma rep_send N c h w : Rep N c h -> cache_send c w = array_send pwrite (replay N h) w.
Proof. apply (rep_send_at (fun p => p)). Qed.

(** Every GOP of a history is a key frame followed by inter frames. *)
Lemma gop_step_good l p : Forall good_gop l -> Forall good_gop (gop_step l p).
Proof.
  intros H. unfold gop_step. destruct (is_key p) eqn:Ek.
  - apply Forall_app. split; [exact H|]. repeat constructor. exists p, []. auto.
  - destruct (is_inter p) eqn:Ei; [|exact H]. destruct (snoc_inv l) as [->|(l' & g & ->)]; [exact H|].
    rewrite app_last_snoc. apply Forall_app in H as [H1 H2]. apply Forall_app. split; [exact H1|].
    inversion H2 as [|? ? (k & is & -> & Hk & Hs) _]; subst. repeat constructor. exists k, (is ++ [p]).
    split; [reflexivity|]. split; [exact Hk|]. apply Forall_app. auto.
Qed.
Lemma gops_of_good h : Forall good_gop (gops_of h).
Proof.
  induction h as [|p h IH] using rev_ind; [constructor|]. rewrite gops_of_snoc. apply gop_step_good, IH.
Qed.
Lemma Forall_skipn {A} (P : A -> Prop) n l : Forall P l -> Forall P (skipn n l).
Proof. revert l; induction n; intros [|x l] H; cbn; auto. inversion H; auto. Qed.
Lemma Forall_lastn {A} (P : A -> Prop) n l : Forall P l -> Forall P (lastn n l).
Proof. apply Forall_skipn. Qed.

(** GOPs of accepted histories hold at most 1025 packets (for N > 0). *)
Lemma accepted_small N h : (0 < N)%nat -> forall c h0 c' rs, Rep N c h0 -> Forall (fun g => len g <= 1025) (gops_of h0) ->
  cache_run c h = (c', rs) -> Forall (fun g => len g <= 1025) (gops_of (h0 ++ accepted h rs)).
Proof.
  intros HN. induction h as [|p h IH]; intros c h0 c' rs HR HS E; cbn [cache_run] in E.
  - inversion E; subst. cbn. rewrite app_nil_r. exact HS.
  - destruct (cache_write c p) as [c1 r] eqn:E1. destruct (cache_run c1 h) as [c2 rs2] eqn:E2. inversion E; subst.
    destruct (rep_write N c h0 p c1 r HR E1) as [H Hf]. destruct r as [[]|e| |]; cbn [accepted].
    + change (p :: accepted h rs2) with ([p] ++ accepted h rs2). rewrite app_assoc. eapply IH; [exact H| |exact E2].
      rewrite gops_of_snoc. unfold gop_step. destruct (is_key p) eqn:Ek.
      * apply Forall_app. split; [exact HS|]. repeat constructor. unfold len in *; cbn [length] in *; lia.
      * destruct (is_inter p) eqn:Ei; [|exact HS]. specialize (Hf eq_refl eq_refl HN). unfold gop_full in Hf.
        destruct (snoc_inv (gops_of h0)) as [E0|(l' & g & E0)]; rewrite E0 in *; [exact HS|].
        rewrite rev_app_distr in Hf. cbn in Hf. rewrite app_last_snoc. apply Forall_app in HS as [S1 S2]. apply Forall_app. split; [exact S1|].
        repeat constructor. rewrite len_app. unfold len in *; cbn [length] in *; lia.
    + eapply IH; [exact (proj1 H)|exact HS|exact E2].
    + eapply IH; [exact (proj1 H)|exact HS|exact E2].
    + contradiction.
Qed.
