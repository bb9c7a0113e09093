(** SendTo over a ring that is written to meanwhile: the slots of the ring are the groups by number modulo N. *)
From Verif Require Import Base.Go Base.GoFacts Model.Packet Model.Gop Model.GopPtr Model.GopLive Spec.Gop Spec.GopPtr Spec.GopLive Proofs.Gop Proofs.GopPtr.

(** ** Groups by number *)
Lemma latest_with_snoc {A} N c (gs : list A) g : forall j b, latest_with N c j (gs ++ [g]) b = if ((j + length gs) mod N =? c)%nat then Some g else latest_with N c j gs b.
Proof.
  induction gs as [|x gs IH]; intros j b; cbn [app latest_with length]; [rewrite Nat.add_0_r; reflexivity|]. rewrite IH.
  replace (S j + length gs)%nat with (j + S (length gs))%nat by lia. reflexivity.
Qed.
Lemma latest_with_none {A} N c (gs : list A) : (c < N)%nat -> latest_with N c 0 gs None = None <-> (length gs <= c)%nat.
Proof.
  intros HC. induction gs as [|g gs IH] using rev_ind; [cbn; split; [lia|reflexivity]|]. rewrite latest_with_snoc, app_length. cbn [length Nat.add].
  destruct (Nat.eqb_spec (length gs mod N) c) as [E|E].
  - split; [discriminate|]. intros H. rewrite Nat.mod_small in E by lia. lia.
  - rewrite IH. split; intros H; [|lia]. destruct (Nat.eq_dec (length gs) c) as [E2|E2]; [|lia]. rewrite E2, Nat.mod_small in E by lia. lia.
Qed.

Record slots {X} (N : nat) (g : gops_of_type X) (gs : list (list X)) : Prop := {
  sl_pos : (0 < N)%nat;
  sl_cap : g_cap g = Z.of_nat N;
  sl_index : g_index g = match gs with [] => -1 | _ => Z.of_nat ((length gs - 1) mod N) end;
  sl_len : g_len g = Z.of_nat (Nat.min (length gs) N);
  sl_length : length (g_gops g) = N;
  sl_slot : forall c, (c < N)%nat -> nth c (g_gops g) None = latest_with N c 0 gs None }.

Lemma slot_in {X} (l : list (option (list X))) c : (c < length l)%nat -> slot l (Z.of_nat c) = Ok (nth c l None).
Proof. intros H. apply slot_nth; [exact H|reflexivity]. Qed.
Lemma set_slot_length {X} (l : list (option (list X))) c a : (c < length l)%nat -> length (set_slot l (Z.of_nat c) a) = length l.
Proof. intros H. unfold set_slot. rewrite Nat2Z.id, app_length. cbn [length]. rewrite firstn_length, skipn_length. lia. Qed.
Lemma set_slot_nth {X} (l : list (option (list X))) c a j : (c < length l)%nat -> nth j (set_slot l (Z.of_nat c) a) None = if (j =? c)%nat then Some a else nth j l None.
Proof.
  intros H. unfold set_slot. rewrite Nat2Z.id. destruct (Nat.eqb_spec j c) as [->|N].
  - rewrite app_nth2 by (rewrite firstn_length; lia). rewrite firstn_length, Nat.min_l by lia. rewrite Nat.sub_diag. reflexivity.
  - destruct (Nat.lt_ge_cases j c) as [L|L].
    + rewrite app_nth1 by (rewrite firstn_length; lia). rewrite <- (firstn_skipn c l) at 2. rewrite app_nth1 by (rewrite firstn_length; lia). reflexivity.
    + rewrite app_nth2 by (rewrite firstn_length; lia). rewrite firstn_length, Nat.min_l by lia. destruct (j - c)%nat as [|m] eqn:E; [lia|]. cbn [nth].
      rewrite <- (firstn_skipn (S c) l) at 2. rewrite app_nth2 by (rewrite firstn_length; lia). rewrite firstn_length, Nat.min_l by lia. f_equal. lia.
Qed.

Lemma succ_mod (T N : nat) : (0 < N)%nat -> (0 < T)%nat -> (((T - 1) mod N + 1) mod N = T mod N)%nat.
Proof. intros HN HT. rewrite Nat.add_mod_idemp_l by lia. f_equal. lia. Qed.

Lemma slots_create {X} N (g : gops_of_type X) gs p : slots N g gs -> exists g', gop_write g p true = (g', Ok tt) /\ slots N g' (gs ++ [[p]]).
Proof.
  intros [HN Hc Hi Hl HL Hs]. unfold gop_write. rewrite Hc. replace ((Z.of_nat N <=? 0) || (len (g_gops g) <=? 0)) with false by (unfold len; lia).
  assert (EI : (g_index g + 1) mod Z.of_nat N = Z.of_nat (length gs mod N)).
  { rewrite Hi. destruct gs as [|x gs]; [cbn [length]; rewrite Nat.mod_0_l by lia; rewrite Z.mod_0_l by lia; reflexivity|].
    rewrite <- (succ_mod (length (x :: gs)) N HN) by (cbn; lia). rewrite !Nat2Z.inj_mod, Nat2Z.inj_add, Nat2Z.inj_mod. reflexivity. }
  rewrite EI. pose proof (Nat.mod_upper_bound (length gs) N ltac:(lia)) as HB. rewrite slot_in by lia. rewrite Hs by lia. cbn [array_write len length].
  assert (AW : array_write [] p = ([p], Ok tt)) by reflexivity.
  assert (G : forall n, n = Z.of_nat (Nat.min (length gs + 1) N) -> slots N (mkG n (Z.of_nat N) (Z.of_nat (length gs mod N)) (set_slot (g_gops g) (Z.of_nat (length gs mod N)) [p])) (gs ++ [[p]])).
  { intros n ->. constructor; cbn [g_cap g_index g_len g_gops]; try assumption; try reflexivity.
    - rewrite app_length. cbn [length]. replace (length gs + 1 - 1)%nat with (length gs) by lia. destruct gs; reflexivity.
    - rewrite app_length. reflexivity.
    - rewrite set_slot_length by lia. exact HL.
    - intros c HC. rewrite set_slot_nth by lia. rewrite latest_with_snoc, Nat.add_0_l, Nat.eqb_sym. destruct (length gs mod N =? c)%nat; [reflexivity|apply Hs, HC]. }
  destruct (latest_with N (length gs mod N) 0 gs None) as [a|] eqn:E; rewrite AW, ?Hl; eexists; (split; [reflexivity|apply G]).
  - assert (~ (length gs <= length gs mod N)%nat) by (rewrite <- latest_with_none by exact HB; rewrite E; discriminate).
    assert ((N <= length gs)%nat). { destruct (Nat.lt_ge_cases (length gs) N) as [Q|Q]; [rewrite Nat.mod_small in H by exact Q; lia|exact Q]. } lia.
  - apply latest_with_none in E; [|exact HB]. assert ((length gs < N)%nat) by (pose proof (Nat.mod_le (length gs) N ltac:(lia)); lia). lia.
Qed.
Lemma slots_inter {X} N (g : gops_of_type X) gs p g' r : slots N g gs -> gop_write g p false = (g', r) ->
  slots N g' (match r with Ok _ => app_last gs p | _ => gs end).
Proof.
  intros HSL. pose proof HSL as [HN Hc Hi Hl HL Hs]. unfold gop_write. rewrite Hc. replace ((Z.of_nat N <=? 0) || (len (g_gops g) <=? 0)) with false by (unfold len; lia).
  destruct (snoc_inv gs) as [->|(gs0 & a & ->)].
  - rewrite Hi. change (-1 <? 0) with true. intros H. injection H as <- <-. exact HSL.
  - assert (EI : g_index g = Z.of_nat (length gs0 mod N)).
    { rewrite Hi, app_length. cbn [length]. replace (length gs0 + 1 - 1)%nat with (length gs0) by lia. destruct gs0; reflexivity. }
    rewrite EI. pose proof (Nat.mod_upper_bound (length gs0) N ltac:(lia)) as HB. replace (Z.of_nat (length gs0 mod N) <? 0) with false by lia.
    rewrite slot_in by lia. rewrite Hs by lia. rewrite latest_with_snoc, Nat.add_0_l, Nat.eqb_refl. unfold array_write. destruct (maxGop <? len a).
    + intros H. injection H as <- <-. constructor; cbn [g_cap g_index g_len g_gops]; try assumption; try reflexivity.
      * rewrite <- EI. exact Hi.
      * rewrite set_slot_length by lia. exact HL.
      * intros c HC. rewrite set_slot_nth by lia. rewrite latest_with_snoc, Nat.add_0_l, Nat.eqb_sym. destruct (Nat.eqb_spec (length gs0 mod N) c) as [E|E]; [reflexivity|].
        rewrite Hs by exact HC. rewrite latest_with_snoc, Nat.add_0_l. destruct (Nat.eqb_spec (length gs0 mod N) c); [contradiction|reflexivity].
    + intros H. injection H as <- <-. rewrite app_last_snoc. constructor; cbn [g_cap g_index g_len g_gops]; try assumption; try reflexivity.
      * rewrite app_length. cbn [length]. replace (length gs0 + 1 - 1)%nat with (length gs0) by lia. destruct gs0; reflexivity.
      * rewrite Hl, !app_length. reflexivity.
      * rewrite set_slot_length by lia. exact HL.
      * intros c HC. rewrite set_slot_nth by lia. rewrite latest_with_snoc, Nat.add_0_l, Nat.eqb_sym. destruct (Nat.eqb_spec (length gs0 mod N) c) as [E|E]; [reflexivity|].
        rewrite Hs by exact HC. rewrite latest_with_snoc, Nat.add_0_l. destruct (Nat.eqb_spec (length gs0 mod N) c); [contradiction|reflexivity].
Qed.

(** ** The relation *)
Definition Live (N : nat) (c : cache_of_type nat) (h : history) : Prop :=
  Sim N c h /\ match N with O => g_cap (c_gop c) = 0 | S _ => slots N (c_gop c) (groups h) end.
Lemma live_new n c : new_cache_of n = Ok c -> Live (Z.to_nat n) c [].
Proof.
  intros H. split; [apply sim_new, H|]. unfold new_cache_of, new_gops in H. destruct (n <? 0) eqn:E; [discriminate|]. inversion H; subst. cbn [c_gop].
  destruct (Z.to_nat n) as [|m] eqn:EN; [cbn; lia|]. constructor; cbn [g_cap g_index g_len g_gops groups fold_left length]; try lia; try reflexivity.
  - rewrite repeat_length. reflexivity.
  - intros k Hk. cbn [latest_with]. apply nth_repeat.
Qed.
Lemma groups_snoc h x k : groups (h ++ [(x, k)]) = group (groups h) (x, k).
Proof. unfold groups. rewrite fold_left_app. reflexivity. Qed.
(** Writes that leave the ring alone. *)
Lemma live_same N c h x k c' r : Live N c h -> c_gop c' = c_gop c -> (x <> KKey /\ x <> KInter) ->
  r = snd (record N h (Some x) k) /\ Sim N c' (fst (record N h (Some x) k)) -> r = snd (record N h (Some x) k) /\ Live N c' (fst (record N h (Some x) k)).
Proof.
  intros [_ HL] HG HX [H1 H2]. split; [exact H1|]. split; [exact H2|]. rewrite HG. destruct N as [|N]; [exact HL|].
  unfold record. destruct (rejects _ h x); cbn [fst]; [exact HL|]. rewrite groups_snoc. unfold group. cbn [fst snd]. destruct x; try exact HL; tauto.
Qed.
(** Writes to the ring. *)
Lemma live_put N c h (b : bool) k c' r : Live N c h -> c_gop c' = fst (gop_write (c_gop c) k b) -> r = snd (gop_write (c_gop c) k b) ->
  let x := if b then KKey else KInter in
  r = snd (record N h (Some x) k) /\ Sim N c' (fst (record N h (Some x) k)) -> r = snd (record N h (Some x) k) /\ Live N c' (fst (record N h (Some x) k)).
Proof.
  intros [_ HL] HG HR x [H1 H2]. split; [exact H1|]. split; [exact H2|]. rewrite HG. destruct N as [|N].
  - unfold gop_write. rewrite HL. exact HL.
  - rewrite HR in H1. clear H2. destruct b.
    + destruct (slots_create _ _ _ k HL) as (g' & E & S'). rewrite E in H1 |- *. cbn [fst snd] in *. unfold record in *. subst x. cbn [rejects fst snd] in *. rewrite groups_snoc. exact S'.
    + destruct (gop_write (c_gop c) k false) as [g' r'] eqn:E. pose proof (slots_inter _ _ _ _ _ _ HL E) as S'. cbn [fst snd] in *. subst r'. unfold record in *. subst x.
      destruct (rejects (S N) h KInter); cbn [fst snd] in *; rewrite H1 in S'; [exact S'|]. rewrite groups_snoc. exact S'.
Qed.
Lemma live_video N v c h k : Live N c h ->
  snd (cache_write_video v c k) = snd (record N h (kind_video (v k)) k) /\ Live N (fst (cache_write_video v c k)) (fst (record N h (kind_video (v k)) k)).
Proof.
  intros HL. pose proof (sim_video N v c h k (proj1 HL)) as P. rewrite video_kind in *. unfold cache_write_video in *. destruct (video_of (v k)) as [vh|]; [|cbn [record fst snd] in *; tauto].
  destruct (v_seq vh); [refine (live_same _ _ _ _ _ _ _ HL _ _ P); [reflexivity|split; discriminate]|].
  destruct (v_key vh); cbn [orb] in *.
  - destruct (gop_write (c_gop c) k true) as [g r] eqn:E. cbn [fst snd] in *. apply (live_put N c h true k (mkC g (c_video c) (c_audio c) (c_meta c)) r HL); [rewrite E; reflexivity|rewrite E; reflexivity|exact P].
  - destruct (v_inter vh).
    + destruct (gop_write (c_gop c) k false) as [g r] eqn:E. cbn [fst snd] in *. apply (live_put N c h false k (mkC g (c_video c) (c_audio c) (c_meta c)) r HL); [rewrite E; reflexivity|rewrite E; reflexivity|exact P].
    + refine (live_same _ _ _ _ _ _ _ HL _ _ P); [reflexivity|split; discriminate].
Qed.
Lemma live_audio N v c h k : Live N c h ->
  snd (cache_write_audio v c k) = snd (record N h (kind_audio (v k)) k) /\ Live N (fst (cache_write_audio v c k)) (fst (record N h (kind_audio (v k)) k)).
Proof.
  intros HL. pose proof (sim_audio N v c h k (proj1 HL)) as P. rewrite audio_kind in *. unfold cache_write_audio in *. destruct (audio_of (v k)) as [ah|]; [|cbn [record fst snd] in *; tauto].
  destruct (a_aac ah && a_seq ah); (refine (live_same _ _ _ _ _ _ _ HL _ _ P); [reflexivity|split; discriminate]).
Qed.
Lemma live_write N v c h k : Live N c h ->
  snd (cache_write_at v c k) = snd (record N h (kind_of (v k)) k) /\ Live N (fst (cache_write_at v c k)) (fst (record N h (kind_of (v k)) k)).
Proof.
  intros HL. pose proof (sim_write N v c h k (proj1 HL)) as P. unfold cache_write_at, kind_of in *. change PktVideo with 0 in *. change PktAudio with 1 in *. change PktMetadata with 2 in *.
  destruct (p_type (v k) =? 0); [apply live_video, HL|]. destruct (p_type (v k) =? 1); [apply live_audio, HL|].
  destruct (p_type (v k) =? 2); (refine (live_same _ _ _ _ _ _ _ HL _ _ P); [reflexivity|split; discriminate]).
Qed.
Lemma live_op_step {St} (at_ : St -> nat -> packet) N c h s o : Live N c h ->
  let x := gop_step_ptr at_ c s o in let y := spec_step at_ N h s o in snd x = snd y /\ Live N (fst x) (fst y).
Proof.
  intros HL. pose proof (sim_step at_ N c h s o (proj1 HL)) as P. cbv zeta in *. destruct o; cbn [gop_step_ptr spec_step fst snd] in *; try (split; [apply P|exact HL]).
  - pose proof (live_write N (at_ s) c h k HL) as Q. destruct (record N h (kind_of (at_ s k)) k). cbn [fst snd] in *. split; [apply P|apply Q].
  - pose proof (live_video N (at_ s) c h k HL) as Q. destruct (record N h (kind_video (at_ s k)) k). cbn [fst snd] in *. split; [apply P|apply Q].
  - pose proof (live_audio N (at_ s) c h k HL) as Q. destruct (record N h (kind_audio (at_ s k)) k). cbn [fst snd] in *. split; [apply P|apply Q].
  - destruct (gop_write (c_gop c) k create) as [g r] eqn:E.
    pose proof (live_put N c h create k (mkC g (c_video c) (c_audio c) (c_meta c)) r HL ltac:(rewrite E; reflexivity) ltac:(rewrite E; reflexivity)) as Q. cbv zeta in Q.
    destruct (record N h (Some (if create then KKey else KInter)) k) as [h' r']. cbn [fst snd] in *. destruct P as [P1 P2]. injection P1 as ->. split; [reflexivity|]. apply Q. auto.
  - pose proof (live_same N c h KMeta k (mkC (c_gop c) (c_video c) (c_audio c) (Some k)) (Ok tt) HL eq_refl ltac:(split; discriminate)) as Q. cbn [record rejects fst snd] in *. split; [reflexivity|]. apply Q. split; [reflexivity|apply P].
  - pose proof (live_same N c h KVideoSeq k (mkC (c_gop c) (Some k) (c_audio c) (c_meta c)) (Ok tt) HL eq_refl ltac:(split; discriminate)) as Q. cbn [record rejects fst snd] in *. split; [reflexivity|]. apply Q. split; [reflexivity|apply P].
  - pose proof (live_same N c h KAudioSeq k (mkC (c_gop c) (c_video c) (Some k) (c_meta c)) (Ok tt) HL eq_refl ltac:(split; discriminate)) as Q. cbn [record rejects fst snd] in *. split; [reflexivity|]. apply Q. split; [reflexivity|apply P].
Qed.

(** ** Sending *)
Definition same {St} (N : nat) (a : (cache_of_type nat * St) * res unit) (b : (history * St) * res unit) : Prop :=
  Live N (fst (fst a)) (fst (fst b)) /\ snd (fst a) = snd (fst b) /\ snd a = snd b.
Lemma same_seq {St} N a b (f : cache_of_type nat * St -> _) (g : history * St -> _) : same N a b ->
  (forall c h s, Live N c h -> same N (f (c, s)) (g (h, s))) -> same N (pseq a f) (pseq b g).
Proof.
  destruct a as [[c s] r], b as [[h s'] r']. intros (H1 & H2 & H3) HF. cbn [fst snd] in *. subst s' r'. destruct r as [u|e| |]; cbn [pseq]; try (split; [exact H1|split; reflexivity]). apply HF, H1.
Qed.
Lemma same_writes N v ks : forall c h, Live N c h -> snd (write_all v c ks) = snd (record_all N v h ks) /\ Live N (fst (write_all v c ks)) (fst (record_all N v h ks)).
Proof.
  induction ks as [|k ks IH]; intros c h HL; [cbn; auto|]. cbn [write_all record_all]. pose proof (live_write N v c h k HL) as P.
  destruct (cache_write_at v c k) as [c' r], (record N h (kind_of (v k)) k) as [h' r']. cbn [fst snd] in P. destruct P as [-> P]. destruct r' as [u|e| |]; try (apply IH, P). cbn [fst snd]. auto.
Qed.
Lemma same_call {St} (at_ : St -> nat -> packet) N wr k c h s : Live N c h -> same N (live_call at_ wr k (c, s)) (spec_call at_ N wr k (h, s)).
Proof.
  intros HL. unfold live_call, spec_call. cbn [fst snd]. destruct (wr k s) as [s1 [ks r]]. pose proof (same_writes N (at_ s1) ks c h HL) as P.
  destruct (write_all (at_ s1) c ks) as [c' rw], (record_all N (at_ s1) h ks) as [h' rw']. cbn [fst snd] in P. destruct P as [-> P]. split; [exact P|split; reflexivity].
Qed.
Lemma same_array {St} (at_ : St -> nat -> packet) N wr q n : (q < N)%nat -> forall i c h s, Live N c h ->
  same N (live_array at_ wr (Z.of_nat q) n i (c, s)) (spec_group at_ N wr q n i (h, s)).
Proof.
  intros HQ. induction n as [|n IH]; intros i c h s HL; cbn [live_array spec_group]; [split; [exact HL|split; reflexivity]|]. cbn [fst].
  destruct HL as [HS HL]. destruct N as [|N]; [lia|]. rewrite slot_in by (rewrite (sl_length _ _ _ HL); exact HQ). rewrite (sl_slot _ _ _ HL q HQ). fold (group_now (S N) q h).
  destruct (group_now (S N) q h) as [g|]; [|split; [split; assumption|split; reflexivity]]. destruct (nth_error g i) as [k|]; [|split; [split; assumption|split; reflexivity]].
  apply same_seq; [apply same_call; split; assumption|]. intros c' h' s' HL'. apply IH, HL'.
Qed.
Lemma same_gops {St} (at_ : St -> nat -> packet) N wr start n : forall i c h s, (i + n = N)%nat -> (start < N)%nat -> (start = 0%nat \/ N <= length (groups h))%nat -> Live N c h ->
  same N (live_gops at_ wr (Datatypes.S n) (Z.of_nat start) (Z.of_nat i) (c, s)) (spec_groups at_ N wr start n i (h, s)).
Proof.
  induction n as [|n IH]; intros i c h s HI HST HF HL; pose proof HL as [HS HSL]; (destruct N as [|N]; [lia|]); pose proof HSL as [HN Hc Hi Hl HLn Hs].
  - cbn [live_gops spec_groups fst]. rewrite Hl. replace (Z.of_nat i <? Z.of_nat (Nat.min (length (groups h)) (S N))) with false by lia. split; [exact HL|split; reflexivity].
  - remember (Datatypes.S n) as n1 eqn:En. cbn [live_gops]. rewrite En. cbn [spec_groups fst]. rewrite Hl. replace (Z.of_nat i <? Z.of_nat (Nat.min (length (groups h)) (S N))) with (i <? length (groups h))%nat by lia.
    destruct (Nat.ltb_spec i (length (groups h))) as [HT|HT]; [|split; [exact HL|split; reflexivity]].
    assert (EQ : (Z.of_nat start + Z.of_nat i) mod Z.of_nat (Nat.min (length (groups h)) (S N)) = Z.of_nat ((start + i) mod S N)).
    { destruct HF as [->|HF].
      - rewrite !Nat.add_0_l, Z.add_0_l, Z.mod_small, Nat.mod_small by lia. reflexivity.
      - rewrite Nat.min_r by exact HF. rewrite Nat2Z.inj_mod, Nat2Z.inj_add. reflexivity. }
    rewrite EQ. pose proof (Nat.mod_upper_bound (start + i) (S N) ltac:(lia)) as HB. rewrite slot_in by lia. rewrite Hs by exact HB. fold (group_now (S N) ((start + i) mod S N) h).
    destruct (group_now (S N) ((start + i) mod S N) h) as [g|]; [|split; [exact HL|split; reflexivity]].
    (* the number of groups does not fall *)
    assert (GROW : forall k c1 h1 s1, (start = 0%nat \/ S N <= length (groups h1))%nat -> Live (S N) c1 h1 ->
      let b := spec_call at_ (S N) wr k (h1, s1) in (start = 0%nat \/ S N <= length (groups (fst (fst b))))%nat).
    { intros k c1 h1 s1 [H|H] _; [left; exact H|right]. unfold spec_call. cbn [fst snd]. destruct (wr k s1) as [s2 [ks r]].
      assert (G : forall ks h1, (length (groups h1) <= length (groups (fst (record_all (S N) (at_ s2) h1 ks))))%nat).
      { clear. induction ks as [|k ks IH]; intros h1; cbn [record_all]; [reflexivity|].
        assert (Q : (length (groups h1) <= length (groups (fst (record (S N) h1 (kind_of (at_ s2 k)) k))))%nat).
        { unfold record. destruct (kind_of (at_ s2 k)) as [x|]; [|cbn [fst]; lia]. destruct (rejects _ _ _); cbn [fst]; [lia|]. rewrite groups_snoc. unfold group. cbn [fst snd].
          destruct x; try lia; [rewrite app_length; lia|]. destruct (snoc_inv (groups h1)) as [->|(l & g & ->)]; [cbn; lia|]. rewrite app_last_snoc, !app_length. cbn [length]. lia. }
        destruct (record (S N) h1 (kind_of (at_ s2 k)) k) as [h' [u|e| |]]; cbn [fst] in Q |- *; (try (etransitivity; [exact Q|apply IH])). exact Q. }
      specialize (G ks h1). destruct (record_all (S N) (at_ s2) h1 ks) as [h2 rw]. cbn [fst] in *. lia. }
    assert (KEEP : forall m j c1 h1 s1, (start = 0%nat \/ S N <= length (groups h1))%nat -> Live (S N) c1 h1 ->
      let b := spec_group at_ (S N) wr ((start + i) mod S N) m j (h1, s1) in (start = 0%nat \/ S N <= length (groups (fst (fst b))))%nat).
    { induction m as [|m IHm]; intros j c1 h1 s1 H1 L1; cbn [spec_group]; [exact H1|]. cbn [fst]. destruct (group_now _ _ h1) as [g1|]; [|exact H1]. destruct (nth_error g1 j) as [k|]; [|exact H1].
      pose proof (GROW k c1 h1 s1 H1 L1) as P. pose proof (same_call at_ (S N) wr k c1 h1 s1 L1) as Q. cbv zeta in P.
      destruct (spec_call at_ (S N) wr k (h1, s1)) as [[h2 s2] r], (live_call at_ wr k (c1, s1)) as [[c2 s2'] r']. destruct Q as (Q1 & Q2 & Q3). cbn [fst snd] in *. destruct r as [u|e| |]; cbn [pseq]; try exact P. apply (IHm _ c2); assumption. }
    pose proof (same_array at_ (S N) wr ((start + i) mod S N)%nat (length g) HB 0 c h s HL) as P. pose proof (KEEP (length g) 0%nat c h s HF HL) as K. cbv zeta in K.
    destruct (live_array at_ wr _ (length g) 0 (c, s)) as [[c2 s2] r], (spec_group at_ (S N) wr _ (length g) 0 (h, s)) as [[h2 s2'] r']. destruct P as (P1 & P2 & P3). cbn [fst snd] in *. subst s2' r'.
    destruct r as [u|e| |]; cbn [pseq]; try (split; [exact P1|split; reflexivity]). replace (Z.of_nat i + 1) with (Z.of_nat (Datatypes.S i)) by lia. rewrite <- ?En. apply IH; [lia|exact HST|exact K|exact P1].
Qed.
Lemma same_gop_send {St} (at_ : St -> nat -> packet) N wr c h s : Live N c h -> same N (live_gop_send at_ wr (c, s)) (spec_gop_send at_ N wr (h, s)).
Proof.
  intros HL. pose proof HL as [HS HSL]. unfold live_gop_send, spec_gop_send. cbn [fst]. destruct N as [|N].
  - rewrite HSL. cbn. split; [exact HL|split; reflexivity].
  - pose proof HSL as [HN Hc Hi Hl HLn Hs]. rewrite Hc, Hl, Hi. destruct (groups h) as [|g0 gs] eqn:EG.
    + cbn [length spec_groups Nat.min]. replace ((Z.of_nat (S N) <=? 0) || (Z.of_nat 0 <=? 0)) with true by lia. cbn [fst]. rewrite EG. cbn [length Nat.ltb Nat.leb]. split; [exact HL|split; reflexivity].
    + rewrite <- EG in *. assert (HT : (0 < length (groups h))%nat) by (rewrite EG; cbn; lia). set (T := length (groups h)) in *.
      replace ((Z.of_nat (S N) <=? 0) || (Z.of_nat (Nat.min T (S N)) <=? 0)) with false by lia. rewrite Nat2Z.id.
      assert (EB : (Z.of_nat ((T - 1) mod S N) + 1) mod Z.of_nat (Nat.min T (S N)) = Z.of_nat ((T - S N) mod S N)).
      { destruct (Nat.lt_ge_cases T (S N)) as [L|L].
        - rewrite Nat.min_l, Nat.mod_small by lia. replace (T - S N)%nat with 0%nat by lia. rewrite Nat.mod_0_l by lia. replace (Z.of_nat (T - 1) + 1) with (Z.of_nat T) by lia. apply Z_mod_same_full.
        - rewrite Nat.min_r by lia. replace ((T - S N) mod S N)%nat with (T mod S N)%nat.
          + rewrite <- (succ_mod T (S N)) by lia. rewrite !Nat2Z.inj_mod, Nat2Z.inj_add, Nat2Z.inj_mod. reflexivity.
          + replace T with (T - S N + 1 * S N)%nat at 1 by lia. apply Nat.mod_add. lia. }
      rewrite EB. change 0 with (Z.of_nat 0). apply same_gops; [lia|apply Nat.mod_upper_bound; lia| |exact HL]. fold T.
      destruct (Nat.lt_ge_cases T (S N)) as [L|L]; [left|right; exact L]. replace (T - S N)%nat with 0%nat by lia. apply Nat.mod_0_l. lia.
Qed.
Lemma same_header {St} (at_ : St -> nat -> packet) N wr get y c h s : Live N c h -> opt (get c) = last_of y h ->
  same N (live_frame at_ wr get (c, s)) (spec_header at_ N wr y (h, s)).
Proof.
  intros HL E. unfold live_frame, spec_header. cbn [fst]. rewrite <- E. destruct (get c) as [k|]; cbn [opt]; [apply same_call, HL|split; [exact HL|split; reflexivity]].
Qed.
Lemma sim_headers N c h : Sim N c h -> opt (c_meta c) = last_of KMeta h /\ opt (c_video c) = last_of KVideoSeq h /\ opt (c_audio c) = last_of KAudioSeq h.
Proof.
  intros (d & HR & ->). cbn [cmap c_meta c_video c_audio]. rewrite (rep_meta _ _ _ _ HR), (rep_video _ _ _ _ HR), (rep_audio _ _ _ _ HR). unfold last_of.
  rewrite (latest_ext _ _ _ sample_meta), (latest_ext _ _ _ sample_video), (latest_ext _ _ _ sample_audio). auto.
Qed.
Lemma same_send {St} (at_ : St -> nat -> packet) N wr c h s : Live N c h -> same N (live_send at_ wr (c, s)) (spec_send at_ N wr (h, s)).
Proof.
  intros HL. unfold live_send, spec_send. apply same_seq; [apply same_header; [exact HL|apply (sim_headers _ _ _ (proj1 HL))]|]. intros c1 h1 s1 L1.
  apply same_seq; [apply same_header; [exact L1|apply (sim_headers _ _ _ (proj1 L1))]|]. intros c2 h2 s2 L2.
  apply same_seq; [apply same_header; [exact L2|apply (sim_headers _ _ _ (proj1 L2))]|]. intros c3 h3 s3 L3. apply same_gop_send, L3.
Qed.
Lemma same_step {St} (at_ : St -> nat -> packet) N o c h s : Live N c h -> same N (live_step at_ (c, s) o) (spec_live_step at_ N (h, s) o).
Proof.
  intros HL. destruct o as [o|wr|wr]; cbn [live_step spec_live_step fst snd]; [|apply same_send, HL|apply same_gop_send, HL].
  pose proof (live_op_step at_ N c h s o HL) as P. cbv zeta in P. destruct (gop_step_ptr at_ c s o) as [c1 [s1 r]], (spec_step at_ N h s o) as [h1 [s1' r']]. cbn [fst snd] in P. destruct P as [P1 P2]. injection P1 as -> ->.
  split; [exact P2|split; reflexivity].
Qed.
Lemma same_run {St} (at_ : St -> nat -> packet) N os : forall c h s, Live N c h ->
  let a := live_run at_ (c, s) os in let b := spec_live_run at_ N (h, s) os in
  Live N (fst (fst a)) (fst (fst b)) /\ snd (fst a) = snd (fst b) /\ snd a = snd b.
Proof.
  induction os as [|o os IH]; intros c h s HL; cbv zeta; [cbn; auto|]. cbn [live_run spec_live_run]. pose proof (same_step at_ N o c h s HL) as P.
  destruct (live_step at_ (c, s) o) as [[c1 s1] r], (spec_live_step at_ N (h, s) o) as [[h1 s1'] r']. destruct P as (P1 & P2 & P3). cbn [fst snd] in *. subst s1' r'.
  specialize (IH c1 h1 s1 P1). cbv zeta in IH. destruct (live_run at_ (c1, s1) os) as [[c2 s2] rs], (spec_live_run at_ N (h1, s1) os) as [[h2 s2'] rs']. cbn [fst snd] in *. destruct IH as (I1 & -> & ->). auto.
Qed.
