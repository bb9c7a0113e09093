(** The cache of pointers refines the list of written pointers. The proof runs a cache of (kind, pointer) pairs beside
    the cache of pointers and uses the ring lemmas of Proofs/Gop.v for it. *)
From Verif Require Import Base.Go Base.GoFacts Model.Packet Model.Gop Model.GopPtr Spec.Gop Spec.GopPtr Proofs.Gop.

(** ** Forgetting part of the pointers *)
Section Map.
Context {X Y : Type} (f : X -> Y).
Definition gmap (g : gops_of_type X) : gops_of_type Y := mkG (g_len g) (g_cap g) (g_index g) (map (option_map (map f)) (g_gops g)).
Definition cmap (c : cache_of_type X) : cache_of_type Y :=
  mkC (gmap (c_gop c)) (option_map f (c_video c)) (option_map f (c_audio c)) (option_map f (c_meta c)).
Lemma slot_map l i : slot (map (option_map (map f)) l) i = match slot l i with Ok o => Ok (option_map (map f) o) | Err e => Err e | Panic => Panic | OutOfFuel => OutOfFuel end.
Proof.
  unfold slot. rewrite len_map. destruct ((0 <=? i) && (i <? len l)); [|reflexivity]. f_equal.
  change (@None (list Y)) with (option_map (map f) None). apply map_nth.
Qed.
Lemma set_slot_map l i a : set_slot (map (option_map (map f)) l) i (map f a) = map (option_map (map f)) (set_slot l i a).
Proof. unfold set_slot. rewrite map_app. cbn [map option_map]. rewrite firstn_map, skipn_map. reflexivity. Qed.
Lemma array_write_map a x : array_write (map f a) (f x) = (map f (fst (array_write a x)), snd (array_write a x)).
Proof. unfold array_write. rewrite len_map. destruct (maxGop <? len a); cbn [fst snd]; [reflexivity|]. rewrite map_app. reflexivity. Qed.
Lemma gop_write_map g x b : gop_write (gmap g) (f x) b = (gmap (fst (gop_write g x b)), snd (gop_write g x b)).
Proof.
  unfold gop_write, gmap at 1 2. cbn [g_cap g_gops g_len g_index gmap]. rewrite len_map.
  destruct ((g_cap g <=? 0) || (len (g_gops g) <=? 0)); [reflexivity|].
  destruct b.
  - rewrite slot_map. destruct (slot (g_gops g) ((g_index g + 1) mod g_cap g)) as [[a|]|e| |]; cbn [option_map].
    + rewrite !array_write_nil. unfold gmap. cbn [fst snd g_len g_cap g_index g_gops]. rewrite <- set_slot_map. reflexivity.
    + rewrite !array_write_nil. unfold gmap. cbn [fst snd g_len g_cap g_index g_gops]. rewrite <- set_slot_map. reflexivity.
    + reflexivity.
    + reflexivity.
    + reflexivity.
  - destruct (g_index g <? 0); [reflexivity|]. rewrite slot_map. destruct (slot (g_gops g) (g_index g)) as [[a|]|e| |]; cbn [option_map]; try reflexivity.
    rewrite array_write_map. destruct (array_write a x) as [a' r]. unfold gmap. cbn [fst snd g_len g_cap g_index g_gops]. rewrite <- set_slot_map. reflexivity.
Qed.
Context {S0 : Type} (wr : Y -> S0 -> S0 * res unit).
Lemma array_send_map a s : array_send wr (map f a) s = array_send (fun x => wr (f x)) a s.
Proof. revert s. induction a as [|x a IH]; intros s; [reflexivity|]. cbn [map array_send]. destruct (wr (f x) s) as [s' [u|e| |]]; try reflexivity. apply IH. Qed.
Lemma frame_send_map o s : frame_send wr (option_map f o) s = frame_send (fun x => wr (f x)) o s.
Proof. destruct o; reflexivity. Qed.
Lemma send_loop_map n : forall base i g s, gop_send_loop wr n base i (gmap g) s = gop_send_loop (fun x => wr (f x)) n base i g s.
Proof.
  induction n as [|n IH]; intros base i g s; [reflexivity|]. cbn [gop_send_loop]. unfold gmap at 1 2. cbn [g_gops g_len]. rewrite slot_map.
  destruct (slot (g_gops g) ((base + i) mod g_len g)) as [[a|]|e| |]; cbn [option_map]; try reflexivity.
  rewrite array_send_map. destruct (array_send _ a s) as [s' [u|e| |]]; try reflexivity. apply IH.
Qed.
Lemma gop_send_map g s : gop_send wr (gmap g) s = gop_send (fun x => wr (f x)) g s.
Proof. unfold gop_send. rewrite <- send_loop_map. reflexivity. Qed.
Lemma cache_send_map c s : cache_send_to wr (cmap c) s = cache_send_to (fun x => wr (f x)) c s.
Proof.
  unfold cache_send_to. cbn [cmap c_gop c_video c_audio c_meta]. rewrite frame_send_map. apply pseq_ext. intros s1.
  rewrite frame_send_map. apply pseq_ext. intros s2. rewrite frame_send_map. apply pseq_ext. intros s3. apply gop_send_map.
Qed.
End Map.

Lemma gop_write_err {X} (g : gops_of_type X) x b g' r : gop_write g x b = (g', r) -> match r with Err e => e = EOther | OutOfFuel => False | _ => True end.
Proof.
  unfold gop_write, array_write. intros H.
  repeat match type of H with context [if ?b then _ else _] => destruct b | context [match ?x with _ => _ end] => destruct x eqn:? end;
    inversion H; subst; auto;
  match goal with H : slot _ _ = OutOfFuel |- _ => unfold slot in H; destruct (_ && _) in H; discriminate end.
Qed.

(** ** A packet of each kind *)
Definition sample (i : kind * nat) : packet :=
  match fst i with
  | KMeta => mkP 2 0 0 0 None [] None
  | KVideoSeq => mkP 0 0 0 0 (Some (mkH (Some (mkVH false false true false true 7 0)) None)) [] None
  | KAudioSeq => mkP 1 0 0 0 (Some (mkH None (Some (mkAH 10 0 true false true)))) [] None
  | KKey => mkP 0 0 0 0 (Some (mkH (Some (mkVH true false false false true 7 0)) None)) [] None
  | KInter => mkP 0 0 0 0 (Some (mkH (Some (mkVH false true false false true 7 0)) None)) [] None
  | KOther => mkP 3 0 0 0 None [] None
  end.
Lemma sample_meta i : is_meta (sample i) = kind_eqb (fst i) KMeta. Proof. destruct i as [[] k]; reflexivity. Qed.
Lemma sample_video i : is_video_seq (sample i) = kind_eqb (fst i) KVideoSeq. Proof. destruct i as [[] k]; reflexivity. Qed.
Lemma sample_audio i : is_aac_seq (sample i) = kind_eqb (fst i) KAudioSeq. Proof. destruct i as [[] k]; reflexivity. Qed.
Lemma sample_key i : is_key (sample i) = kind_eqb (fst i) KKey. Proof. destruct i as [[] k]; reflexivity. Qed.
Lemma sample_inter i : is_inter (sample i) = kind_eqb (fst i) KInter. Proof. destruct i as [[] k]; reflexivity. Qed.
Lemma latest_ext {A} f g (h : list A) : (forall x, f x = g x) -> latest f h = latest g h.
Proof. intros H. unfold latest. induction (rev h) as [|x l IH]; [reflexivity|]. cbn [find]. rewrite H, IH. reflexivity. Qed.
Lemma app_last_map {A B} (f : A -> B) l x : app_last (map (map f) l) (f x) = map (map f) (app_last l x).
Proof.
  destruct (snoc_inv l) as [->|(l' & g & ->)]; [reflexivity|]. rewrite app_last_snoc, !map_app. cbn [map]. rewrite app_last_snoc, map_app. reflexivity.
Qed.
Lemma groups_map h : groups h = map (map snd) (gops_at sample h).
Proof.
  induction h as [|i h IH] using rev_ind; [reflexivity|]. rewrite gops_at_snoc. unfold groups in *. rewrite fold_left_app. cbn [fold_left]. rewrite IH.
  unfold gop_step_at, group. rewrite sample_key, sample_inter. destruct i as [[] k]; cbn [fst snd kind_eqb]; try reflexivity.
  - rewrite map_app. reflexivity.
  - exact (app_last_map snd _ (KInter, k)).
Qed.
Lemma lastn_map {A B} (f : A -> B) n l : lastn n (map f l) = map f (lastn n l).
Proof. unfold lastn. rewrite map_length. apply skipn_map. Qed.
Lemma opt_map {A B} (f : A -> B) o : opt (option_map f o) = map f (opt o). Proof. destruct o; reflexivity. Qed.
Lemma group_replay_map N h : group_replay N h = map snd (concat (lastn N (gops_at sample h))).
Proof. unfold group_replay. rewrite groups_map, lastn_map, concat_map. reflexivity. Qed.
Lemma replay_map N h : pointer_replay N h = map snd (replay_at sample N h).
Proof.
  unfold pointer_replay, replay_at, last_of. rewrite !map_app, !opt_map, group_replay_map.
  rewrite (latest_ext _ _ _ sample_meta), (latest_ext _ _ _ sample_video), (latest_ext _ _ _ sample_audio). reflexivity.
Qed.
Lemma call_each_send {S} (wr : pointer_writer S) ks : forall s, call_each wr ks s = array_send wr ks s.
Proof. induction ks as [|k ks IH]; intros s; [reflexivity|]. cbn [call_each array_send]. destruct (wr k s) as [s' [u|e| |]]; try reflexivity. apply IH. Qed.

(** ** The relation *)
Definition Sim (N : nat) (c : cache_of_type nat) (h : history) : Prop := exists d, Rep_at sample N d h /\ c = cmap snd d.

Lemma sim_new n c : new_cache_of n = Ok c -> Sim (Z.to_nat n) c [].
Proof.
  intros H. unfold new_cache_of, new_gops in H. destruct (n <? 0) eqn:E; [discriminate|]. inversion H; subst.
  eexists (mkC (mkG 0 n (-1) (repeat None (Z.to_nat n))) None None None). split.
  - apply rep_new_at. unfold new_cache_of, new_gops. rewrite E. reflexivity.
  - unfold cmap, gmap. cbn [c_gop c_video c_audio c_meta g_len g_cap g_index g_gops option_map]. do 2 f_equal.
    clear. induction (Z.to_nat n) as [|m IH]; [reflexivity|]. cbn [repeat map option_map]. f_equal. exact IH.
Qed.
Lemma gop_full_kinds h : gop_full_at sample h <-> match rev (groups h) with [] => True | g :: _ => 1024 < len g end.
Proof.
  unfold gop_full_at. rewrite groups_map, <- map_rev. destruct (rev (gops_at sample h)) as [|g l]; cbn [map]; [reflexivity|]. rewrite len_map. reflexivity.
Qed.

(** One write of an item of kind x. *)
Lemma sim_put N d h x k d' r : Rep_at sample N d h -> cache_write_at sample d (x, k) = (d', r) ->
  r = snd (record N h (Some x) k) /\ Rep_at sample N d' (fst (record N h (Some x) k)).
Proof.
  intros HR HW. destruct (rep_write_at sample N d h (x, k) d' r HR HW) as [H1 H2]. rewrite sample_inter in H1, H2. cbn [fst] in H1, H2.
  assert (HJ : rejects N h x = true <-> kind_eqb x KInter = true /\ (0 < N)%nat /\ gop_full_at sample h).
  { rewrite gop_full_kinds. unfold rejects. destruct x; cbn [kind_eqb]; try (split; [discriminate|intros (? & _); discriminate]).
    destruct N as [|N]; [split; [discriminate|lia]|]. destruct (rev (groups h)) as [|g l]; [intuition lia|]. intuition lia. }
  unfold record. destruct r as [[]|e| |].
  - destruct (rejects N h x) eqn:E; [|cbn [fst snd]; auto]. destruct (proj1 HJ eq_refl) as (A & B & C). elim (H2 eq_refl A B C).
  - destruct H1 as (H1 & H3). rewrite (proj2 HJ H3). cbn [fst snd]. split; [|exact H1]. f_equal.
    unfold cache_write_at, cache_write_video, cache_write_audio in HW. destruct x; cbn in HW; try discriminate.
    + destruct (gop_write (c_gop d) (KKey, k) true) as [g' r'] eqn:EW. inversion HW; subst. exact (gop_write_err _ _ _ _ _ EW).
    + destruct (gop_write (c_gop d) (KInter, k) false) as [g' r'] eqn:EW. inversion HW; subst. exact (gop_write_err _ _ _ _ _ EW).
  - exfalso. destruct H1 as (_ & [[A B]|[A B]]); destruct x; cbn in A, B; lia || discriminate.
  - contradiction.
Qed.

(** Each call on the cache of pointers is a write of an item of the kind that the specification gives it. *)
Lemma put_kind N c h x k c' r : Sim N c h ->
  (forall d, c = cmap snd d -> c' = cmap snd (fst (cache_write_at sample d (x, k))) /\ r = snd (cache_write_at sample d (x, k))) ->
  r = snd (record N h (Some x) k) /\ Sim N c' (fst (record N h (Some x) k)).
Proof.
  intros (d & HR & HC) H. destruct (H d HC) as (-> & ->). destruct (cache_write_at sample d (x, k)) as [d' r] eqn:E. cbn [fst snd].
  destruct (sim_put N d h x k d' r HR E) as [A B]. split; [exact A|]. exists d'. auto.
Qed.
Lemma put_gop (d : cache_of_type (kind * nat)) x k (b : bool) : x = (if b then KKey else KInter) ->
  forall (v a m : option nat), v = option_map snd (c_video d) -> a = option_map snd (c_audio d) -> m = option_map snd (c_meta d) ->
  let y := gop_write (c_gop (cmap snd d)) k b in
  mkC (fst y) v a m = cmap snd (fst (cache_write_at sample d (x, k))) /\ snd y = snd (cache_write_at sample d (x, k)).
Proof.
  intros -> v a m -> -> ->. cbv zeta. cbn [cmap c_gop].
  pose proof (gop_write_map snd (c_gop d) (if b then KKey else KInter, k) b) as P. cbn [snd] in P. rewrite P. cbn [fst snd].
  destruct b; unfold cache_write_at, cache_write_video; cbn [sample fst p_type video_of p_header h_video v_seq v_key v_inter orb Z.eqb PktVideo];
    match goal with |- context [gop_write ?g ?x ?b] => destruct (gop_write g x b) as [g' r] end; cbn [fst snd]; split; reflexivity.
Qed.

Lemma video_kind (p : packet) : kind_video p = match video_of p with Some v => Some (if v_seq v then KVideoSeq else if v_key v then KKey else if v_inter v then KInter else KOther) | None => None end.
Proof. unfold kind_video, video_of. destruct (p_header p) as [[[v|] a]|]; reflexivity. Qed.
Lemma audio_kind (p : packet) : kind_audio p = match audio_of p with Some a => Some (if a_aac a && a_seq a then KAudioSeq else KOther) | None => None end.
Proof. unfold kind_audio, audio_of. destruct (p_header p) as [[v [a|]]|]; reflexivity. Qed.

Lemma sim_video N v c h k : Sim N c h ->
  snd (cache_write_video v c k) = snd (record N h (kind_video (v k)) k) /\ Sim N (fst (cache_write_video v c k)) (fst (record N h (kind_video (v k)) k)).
Proof.
  intros HS. rewrite video_kind. unfold cache_write_video. destruct (video_of (v k)) as [vh|]; [|split; [reflexivity|exact HS]].
  destruct (v_seq vh).
  { apply (put_kind N c h _ k _ _ HS). intros d ->. split; reflexivity. }
  destruct (v_key vh); cbn [orb].
  { destruct (gop_write (c_gop c) k true) as [g r] eqn:E. cbn [fst snd]. apply (put_kind N c h _ k _ _ HS). intros d ->.
    pose proof (put_gop d KKey k true eq_refl _ _ _ eq_refl eq_refl eq_refl) as P. rewrite E in P. exact P. }
  destruct (v_inter vh).
  { destruct (gop_write (c_gop c) k false) as [g r] eqn:E. cbn [fst snd]. apply (put_kind N c h _ k _ _ HS). intros d ->.
    pose proof (put_gop d KInter k false eq_refl _ _ _ eq_refl eq_refl eq_refl) as P. rewrite E in P. exact P. }
  apply (put_kind N c h _ k _ _ HS). intros d ->. split; reflexivity.
Qed.
Lemma sim_audio N v c h k : Sim N c h ->
  snd (cache_write_audio v c k) = snd (record N h (kind_audio (v k)) k) /\ Sim N (fst (cache_write_audio v c k)) (fst (record N h (kind_audio (v k)) k)).
Proof.
  intros HS. rewrite audio_kind. unfold cache_write_audio. destruct (audio_of (v k)) as [ah|]; [|split; [reflexivity|exact HS]].
  destruct (a_aac ah && a_seq ah); apply (put_kind N c h _ k _ _ HS); intros d ->; split; reflexivity.
Qed.
Lemma sim_write N v c h k : Sim N c h ->
  snd (cache_write_at v c k) = snd (record N h (kind_of (v k)) k) /\ Sim N (fst (cache_write_at v c k)) (fst (record N h (kind_of (v k)) k)).
Proof.
  intros HS. unfold cache_write_at, kind_of. change PktVideo with 0. change PktAudio with 1. change PktMetadata with 2.
  destruct (p_type (v k) =? 0); [apply sim_video, HS|]. destruct (p_type (v k) =? 1); [apply sim_audio, HS|].
  destruct (p_type (v k) =? 2); apply (put_kind N c h _ k _ _ HS); intros d ->; split; reflexivity.
Qed.

Lemma sim_send {S} N c h (wr : pointer_writer S) s : Sim N c h -> cache_send_to wr c s = call_each wr (pointer_replay N h) s.
Proof. intros (d & HR & ->). rewrite cache_send_map, (rep_send_at sample _ _ _ _ _ HR), call_each_send, replay_map, array_send_map. reflexivity. Qed.
Lemma sim_gop_send {S} N c h (wr : pointer_writer S) s : Sim N c h -> gop_send wr (c_gop c) s = call_each wr (group_replay N h) s.
Proof.
  intros (d & HR & ->). cbn [cmap c_gop]. rewrite gop_send_map, call_each_send, group_replay_map, array_send_map.
  destruct (rep_gop _ _ _ _ HR) as [(-> & Rg)|(A & B & R1 & R2)].
  - unfold gop_send. rewrite Rg, lastn_0. reflexivity.
  - rewrite (ring_send _ _ _ _ _ _ R1), R2. reflexivity.
Qed.
Lemma sim_frame {S} (o : option nat) ks (wr : pointer_writer S) s : ks = opt o -> frame_send wr o s = call_each wr ks s.
Proof. intros ->. rewrite call_each_send. apply array_send_opt. Qed.

Lemma sim_step {S} (at_ : S -> nat -> packet) N c h s o : Sim N c h ->
  let x := gop_step_ptr at_ c s o in let y := spec_step at_ N h s o in snd x = snd y /\ Sim N (fst x) (fst y).
Proof.
  intros HS. cbv zeta. destruct o; cbn [gop_step_ptr spec_step].
  - pose proof (sim_write N (at_ s) c h k HS) as P. destruct (record N h (kind_of (at_ s k)) k). cbn [fst snd] in *. split; [f_equal|]; apply P.
  - pose proof (sim_video N (at_ s) c h k HS) as P. destruct (record N h (kind_video (at_ s k)) k). cbn [fst snd] in *. split; [f_equal|]; apply P.
  - pose proof (sim_audio N (at_ s) c h k HS) as P. destruct (record N h (kind_audio (at_ s k)) k). cbn [fst snd] in *. split; [f_equal|]; apply P.
  - destruct (gop_write (c_gop c) k create) as [g r] eqn:E.
    pose proof (put_kind N c h (if create then KKey else KInter) k (mkC g (c_video c) (c_audio c) (c_meta c)) r HS) as P.
    destruct (record N h (Some (if create then KKey else KInter)) k) as [h' r']. cbn [fst snd] in *.
    destruct P as [P1 P2]; [|split; [f_equal; exact P1|exact P2]]. intros d ->.
    pose proof (put_gop d _ k create eq_refl _ _ _ eq_refl eq_refl eq_refl) as Q. rewrite E in Q. exact Q.
  - pose proof (put_kind N c h KMeta k (mkC (c_gop c) (c_video c) (c_audio c) (Some k)) (Ok tt) HS) as P. cbn in *. destruct P as [P1 P2]; [intros d ->; split; reflexivity|]. auto.
  - pose proof (put_kind N c h KVideoSeq k (mkC (c_gop c) (Some k) (c_audio c) (c_meta c)) (Ok tt) HS) as P. cbn in *. destruct P as [P1 P2]; [intros d ->; split; reflexivity|]. auto.
  - pose proof (put_kind N c h KAudioSeq k (mkC (c_gop c) (c_video c) (Some k) (c_meta c)) (Ok tt) HS) as P. cbn in *. destruct P as [P1 P2]; [intros d ->; split; reflexivity|]. auto.
  - cbn [fst snd]. split; [apply sim_send, HS|exact HS].
  - cbn [fst snd]. split; [apply sim_gop_send, HS|exact HS].
  - cbn [fst snd]. split; [|exact HS]. apply sim_frame. destruct HS as (d & HR & ->). cbn [cmap c_meta]. rewrite (rep_meta _ _ _ _ HR). unfold last_of. rewrite (latest_ext _ _ _ sample_meta). reflexivity.
  - cbn [fst snd]. split; [|exact HS]. apply sim_frame. destruct HS as (d & HR & ->). cbn [cmap c_video]. rewrite (rep_video _ _ _ _ HR). unfold last_of. rewrite (latest_ext _ _ _ sample_video). reflexivity.
  - cbn [fst snd]. split; [|exact HS]. apply sim_frame. destruct HS as (d & HR & ->). cbn [cmap c_audio]. rewrite (rep_audio _ _ _ _ HR). unfold last_of. rewrite (latest_ext _ _ _ sample_audio). reflexivity.
  - cbn [fst snd]. auto.
Qed.
Lemma sim_run {S} (at_ : S -> nat -> packet) N os : forall c h s, Sim N c h ->
  let x := gop_run_ptr at_ c s os in let y := spec_run at_ N h s os in snd x = snd y /\ Sim N (fst x) (fst y).
Proof.
  induction os as [|o os IH]; intros c h s HS; cbv zeta; [split; [reflexivity|exact HS]|]. cbn [gop_run_ptr spec_run].
  pose proof (sim_step at_ N c h s o HS) as P. cbv zeta in P. destruct (gop_step_ptr at_ c s o) as [c1 [s1 r]]. destruct (spec_step at_ N h s o) as [h1 [s1' r']].
  cbn [fst snd] in P. destruct P as [P1 P2]. injection P1 as -> ->. specialize (IH c1 h1 s1' P2). cbv zeta in IH.
  destruct (gop_run_ptr at_ c1 s1' os) as [c2 [s2 rs]]. destruct (spec_run at_ N h1 s1' os) as [h2 [s2' rs']]. cbn [fst snd] in *.
  destruct IH as [I1 I2]. injection I1 as -> ->. auto.
Qed.
