(** Properties C146 and C147: the GOP cache in a program that holds its packets by pointer, and FLV mixers served from it. *)
From Coq Require Import String.
From Verif Require Import Base.Go Base.GoFacts Base.IO Model.AmfTypes Model.Packet Model.Gop Model.GopPtr Model.Flv Spec.Gop Spec.GopPtr
  Proofs.Gop Proofs.GopPtr Props.Gop Props.Fan.
Import ListNotations.

(** ** C146 *)
(** Every program over a cache - whatever its packets, whatever it does to them, whatever writers it sends to - sees the
    results and ends in the state that it would with a list of the pointers written. *)
Theorem C146_refines : forall (S : Type) (at_ : S -> nat -> packet) n c0 os s0, new_cache_of n = Ok c0 ->
  snd (gop_run_ptr at_ c0 s0 os) = snd (spec_run at_ (Z.to_nat n) [] s0 os).
Proof. intros S at_ n c0 os s0 H. apply (sim_run at_ _ os c0 [] s0 (sim_new _ _ H)). Qed.
Print Assumptions C146_refines.

(** A program whose state is its packets and the packets received, as they were when received. *)
Definition packets := nat -> packet.
Definition collect : pointer_writer (packets * list (nat * packet)) := fun k s => ((fst s, snd s ++ [(k, fst s k)]), Ok tt).
Definition assign (k : nat) (p : packet) (s : packets * list (nat * packet)) : packets * list (nat * packet) := ((fun j => if Nat.eqb j k then p else fst s j), snd s).
Example C146_example :
  let os := [GDo (assign 0 (ex_key [1])); GWrite 0; GDo (assign 1 (ex_inter [2])); GWrite 1; GDo (assign 2 (ex_key [3])); GWrite 2;
             GDo (assign 1 (ex_inter [4])); GWrite 1; GGopWrite 0 false; GMetaWrite 1; GSend collect; GGopWrite 2 true; GGopSend collect; GWriteAudio 0] in
  match new_cache_of 1 with
  | Ok c0 => snd (fst (snd (gop_run_ptr (fun s => fst s) c0 (fun _ => ex_meta [], []) os))) =
        [(1%nat, ex_inter [4]); (2%nat, ex_key [3]); (1%nat, ex_inter [4]); (0%nat, ex_key [1]); (2%nat, ex_key [3])] /\
      snd (snd (gop_run_ptr (fun s => fst s) c0 (fun _ => ex_meta [], []) os)) = repeat (Ok tt) 13 ++ [Panic]
  | _ => False
  end.
Proof. cbn zeta. split; vm_compute; reflexivity. Qed.

(** The cache does not keep what was written: a packet that is assigned after it was written is replayed with what was
    assigned, wherever that belongs. *)
Theorem C149_snapshot_refuted : forall n c0 k p q s0, 0 < n -> new_cache_of n = Ok c0 -> is_key p = true -> snd s0 = [] ->
  exists s', snd (gop_run_ptr (fun s => fst s) c0 s0 [GDo (assign k p); GWrite k; GDo (assign k q); GSend collect]) =
               (s', [Ok tt; Ok tt; Ok tt; Ok tt]) /\ snd s' = [(k, q)].
Proof.
  intros n c0 k p q [m l] Hn Hc Hk Hl. cbn [snd] in Hl. subst l. rewrite (C146_refines _ _ _ _ _ _ Hc). unfold spec_run, spec_step, assign at 1 2. cbn [fst snd].
  rewrite Nat.eqb_refl. assert (HK : kind_of p = Some KKey).
  { unfold is_key in Hk. apply andb_prop in Hk as [H1 H2]. unfold kind_of, kind_video. rewrite H1. destruct (p_header p) as [[[v|] a]|]; try discriminate.
    apply andb_prop in H2 as [H2 H3]. destruct (v_seq v); [discriminate|]. rewrite H3. reflexivity. }
  rewrite HK. cbn [record rejects fst snd app]. destruct (Z.to_nat n) as [|m'] eqn:E; [lia|].
  assert (HR : pointer_replay (S m') [(KKey, k)] = [k]).
  { unfold pointer_replay, group_replay, groups, last_of, latest. cbn. unfold lastn. cbn [length]. replace (1 - S m')%nat with 0%nat by lia. reflexivity. }
  rewrite HR. cbn [call_each collect fst snd assign app]. rewrite Nat.eqb_refl. eexists. split; reflexivity.
Qed.
Print Assumptions C149_snapshot_refuted.
(** Proved: as long as the program does not change packets, only calls Write and sends, and its writers do not change
    packets either, SendTo hands over pointers to the replay of the packets accepted, of Spec/Gop.v. *)
Definition keeps_packets {S} (at_ : S -> nat -> packet) (o : gop_op S) : Prop :=
  match o with
  | GWrite _ => True
  | GSend wr | GGopSend wr | GMetaSend wr | GVideoSeqSend wr | GAudioSeqSend wr => forall k s j, at_ (fst (wr k s)) j = at_ s j
  | GDo f => forall s j, at_ (f s) j = at_ s j
  | _ => False
  end.
Fixpoint accepted_writes {S} (p : nat -> packet) (os : list (gop_op S)) (rs : list (res unit)) : list packet :=
  match os, rs with
  | GWrite k :: os', Ok _ :: rs' => p k :: accepted_writes p os' rs'
  | _ :: os', _ :: rs' => accepted_writes p os' rs'
  | _, _ => []
  end.
Lemma each_keeps {S} (at_ : S -> nat -> packet) wr ks : (forall k s j, at_ (fst (wr k s)) j = at_ s j) -> forall s j, at_ (fst (call_each wr ks s)) j = at_ s j.
Proof.
  intros H. induction ks as [|k ks IH]; intros s j; [reflexivity|]. cbn [call_each]. pose proof (H k s j) as P. destruct (wr k s) as [s' [u|e| |]]; cbn [fst] in *; try exact P.
  rewrite IH. exact P.
Qed.
(** Kinds given by the contents of the packets. *)
Definition kinds_by (p : nat -> packet) (h : history) : Prop := Forall (fun i => kind_of (p (snd i)) = Some (fst i)) h.
Lemma kind_tests p x : kind_of p = Some x -> is_meta p = kind_eqb x KMeta /\ is_video_seq p = kind_eqb x KVideoSeq /\ is_aac_seq p = kind_eqb x KAudioSeq /\
  is_key p = kind_eqb x KKey /\ is_inter p = kind_eqb x KInter.
Proof.
  unfold kind_of, is_meta, is_video_seq, is_aac_seq, is_key, is_inter, kind_video, kind_audio.
  destruct (Z.eqb_spec (p_type p) 0) as [->|H0]; [|destruct (Z.eqb_spec (p_type p) 1) as [->|H1]].
  - destruct (p_header p) as [[[v|] a]|]; try discriminate. destruct (v_seq v), (v_key v), (v_inter v); intros H; inversion H; subst; repeat split; reflexivity.
  - destruct (p_header p) as [[v [a|]]|]; try discriminate. destruct (a_aac a && a_seq a) eqn:E; intros H; inversion H; subst; cbn [andb Z.eqb]; rewrite ?E; repeat split; reflexivity.
  - destruct (p_type p =? 2) eqn:E; intros H; inversion H; subst; repeat split; reflexivity.
Qed.
Lemma latest_map {A B} (f : A -> B) g g' (h : list A) : Forall (fun x => g' (f x) = g x) h -> latest g' (map f h) = option_map f (latest g h).
Proof.
  intros H. unfold latest. rewrite <- map_rev. apply Forall_rev in H. induction (rev h) as [|x l IH]; [reflexivity|]. apply Forall_cons_iff in H as [H1 H2]. cbn [map find].
  rewrite H1. destruct (g x); [reflexivity|]. apply IH, H2.
Qed.
Lemma replay_contents p N h : kinds_by p h -> map p (pointer_replay N h) = replay N (map (fun i => p (snd i)) h).
Proof.
  intros H. unfold pointer_replay, replay, last_of, group_replay. rewrite !map_app, <- !opt_map.
  assert (L : forall g x, (forall q y, kind_of q = Some y -> g q = kind_eqb y x) ->
    option_map p (option_map snd (latest (fun i => kind_eqb (fst i) x) h)) = latest g (map (fun i => p (snd i)) h)).
  { intros g x HG. rewrite (latest_map (fun i => p (snd i)) (fun i => kind_eqb (fst i) x) g).
    - destruct (latest _ h); reflexivity.
    - eapply Forall_impl; [|exact H]. intros i Hi. exact (HG _ _ Hi). }
  rewrite (L is_meta KMeta), (L is_video_seq KVideoSeq), (L is_aac_seq KAudioSeq) by (intros q y Hq; apply (kind_tests q y Hq)).
  do 3 f_equal. rewrite concat_map, <- lastn_map. do 2 f_equal.
  induction h as [|i h IH] using rev_ind; [reflexivity|]. apply Forall_app in H as [H1 H2]. apply Forall_cons_iff in H2 as [H2 _]. rewrite map_app. cbn [map]. rewrite gops_of_snoc.
  unfold groups in *. rewrite fold_left_app. cbn [fold_left].
  assert (IH' : map (map p) (fold_left group h []) = gops_of (map (fun i => p (snd i)) h)).
  { apply IH; [exact H1|]. intros g x HG. rewrite (latest_map (fun i => p (snd i)) (fun i => kind_eqb (fst i) x) g).
    - destruct (latest _ h); reflexivity.
    - eapply Forall_impl; [|exact H1]. intros j Hj. exact (HG _ _ Hj). }
  rewrite <- IH'. unfold gop_step, group. destruct (kind_tests _ _ H2) as (_ & _ & _ & -> & ->). destruct i as [[] k]; cbn [fst snd kind_eqb] in *; try reflexivity.
  - rewrite map_app. reflexivity.
  - symmetry. apply app_last_map.
Qed.
Lemma spec_written {S} (at_ : S -> nat -> packet) N os : Forall (keeps_packets at_) os -> forall h s h' s' rs p, (forall j, at_ s j = p j) -> kinds_by p h ->
  spec_run at_ N h s os = (h', (s', rs)) ->
  (forall j, at_ s' j = p j) /\ kinds_by p h' /\ map (fun i => p (snd i)) h' = map (fun i => p (snd i)) h ++ accepted_writes p os rs.
Proof.
  induction os as [|o os IH]; intros H h s h' s' rs p HP HK E; cbn [spec_run] in E.
  - inversion E; subst. cbn [accepted_writes]. rewrite app_nil_r. auto.
  - apply Forall_cons_iff in H as [H1 H2]. destruct (spec_step at_ N h s o) as [h1 [s1 r]] eqn:E1. destruct (spec_run at_ N h1 s1 os) as [h2 [s2 rs2]] eqn:E2. inversion E; subst.
    assert (P : (forall j, at_ s1 j = p j) /\ kinds_by p h1 /\ map (fun i => p (snd i)) h1 = map (fun i => p (snd i)) h ++ accepted_writes p [o] [r]).
    { destruct o; cbn [spec_step keeps_packets] in *; try contradiction.
      2,3,4,5,6: rewrite (surjective_pairing (call_each _ _ _)) in E1; inversion E1; subst; cbn [accepted_writes]; rewrite app_nil_r;
        split; [intros j; rewrite (each_keeps at_ _ _ H1); apply HP|]; auto.
      2: inversion E1; subst; cbn [accepted_writes]; rewrite app_nil_r; split; [intros j; rewrite H1; apply HP|]; auto.
      unfold record in E1. destruct (kind_of (at_ s k)) as [x|] eqn:EK.
      - destruct (rejects N h x); inversion E1; subst; cbn [accepted_writes]; rewrite ?app_nil_r; [auto|]. split; [exact HP|]. split.
        + apply Forall_app. split; [exact HK|]. repeat constructor. cbn [fst snd]. rewrite <- HP. exact EK.
        + rewrite map_app. reflexivity.
      - inversion E1; subst. cbn [accepted_writes]. rewrite app_nil_r. auto. }
    destruct P as (P1 & P2 & P3). destruct (IH H2 _ _ _ _ _ p P1 P2 E2) as (Q1 & Q2 & Q3). split; [exact Q1|]. split; [exact Q2|].
    rewrite Q3, P3, <- app_assoc. f_equal. destruct o; try reflexivity. destruct r; reflexivity.
Qed.
Theorem C149_snapshot_partial : forall (S : Type) (at_ : S -> nat -> packet) n c0 os s0 c s rs, new_cache_of n = Ok c0 ->
  Forall (keeps_packets at_) os -> gop_run_ptr at_ c0 s0 os = (c, (s, rs)) ->
  (forall j, at_ s j = at_ s0 j) /\
  exists ks, (forall wr, cache_send_to wr c s = call_each wr ks s) /\
             map (at_ s) ks = replay (Z.to_nat n) (accepted_writes (at_ s0) os rs).
Proof.
  intros S at_ n c0 os s0 c s rs Hc HF HR. destruct (sim_run at_ _ os c0 [] s0 (sim_new _ _ Hc)) as [E1 E2]. rewrite HR in E1, E2. cbn [fst snd] in E1, E2.
  destruct (spec_run at_ (Z.to_nat n) [] s0 os) as [h [s' rs']] eqn:E. cbn [fst snd] in E1, E2. injection E1 as -> ->.
  destruct (spec_written at_ _ os HF [] s0 h s' rs' (at_ s0) (fun j => eq_refl) (Forall_nil _) E) as (P1 & P2 & P3). split; [exact P1|].
  exists (pointer_replay (Z.to_nat n) h). split; [intros wr; apply sim_send, E2|]. rewrite (map_ext _ _ P1), replay_contents by exact P2. rewrite P3. reflexivity.
Qed.
Print Assumptions C149_snapshot_partial.
Example C149_snapshot_example : Forall (keeps_packets (fun s => fst s)) [GWrite 0; GSend collect; GWrite 1].
Proof. repeat constructor. Qed.
