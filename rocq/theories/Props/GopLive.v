(** Properties C150 and C151: SendTo on a cache that is written to meanwhile. *)
From Verif Require Import Base.Go Base.GoFacts Model.Packet Model.Gop Model.GopPtr Model.GopLive Spec.Gop Spec.GopPtr Spec.GopLive
  Proofs.Gop Proofs.GopPtr Proofs.GopLive Props.Gop Props.GopPtr.

(** ** C150 *)
(** Every program over a cache, with writers that write to the cache they are being served from, sees the results and ends in
    the state that it would with the numbered groups of Spec/GopLive.v. *)
Theorem C150_refines : forall (St : Type) (at_ : St -> nat -> packet) n c0 os s0, new_cache_of n = Ok c0 ->
  let a := live_run at_ (c0, s0) os in let b := spec_live_run at_ (Z.to_nat n) ([], s0) os in
  snd (fst a) = snd (fst b) /\ snd a = snd b.
Proof. intros St at_ n c0 os s0 H. apply (same_run at_ _ os c0 [] s0 (live_new _ _ H)). Qed.
Print Assumptions C150_refines.

(** ** Calls with a list of pointers *)
Fixpoint call_list {St} (at_ : St -> nat -> packet) (N : nat) (wr : live_writer St) (ks : list nat) (x : history * St) : (history * St) * res unit :=
  match ks with [] => (x, Ok tt) | k :: ks' => pseq (spec_call at_ N wr k x) (call_list at_ N wr ks') end.
Lemma call_list_app {St} (at_ : St -> nat -> packet) N wr a b x : call_list at_ N wr (a ++ b) x = pseq (call_list at_ N wr a x) (call_list at_ N wr b).
Proof.
  revert x; induction a as [|k a IH]; intros x; cbn [call_list app]; [reflexivity|]. destruct (spec_call at_ N wr k x) as [x' [u|e| |]]; cbn [pseq]; try reflexivity. apply IH.
Qed.
Lemma same_number (N j T : nat) : (0 < N)%nat -> (j <= T)%nat -> (T < j + N)%nat -> (T mod N = j mod N)%nat -> T = j.
Proof.
  intros HN H1 H2 H3. pose proof (Nat.div_mod T N ltac:(lia)) as A. pose proof (Nat.div_mod j N ltac:(lia)) as B. rewrite H3 in A.
  assert (T / N = j / N)%nat by nia. congruence.
Qed.
Lemma latest_nth {A} N (gs : list A) j : (0 < N)%nat -> (j < length gs)%nat -> (length gs <= j + N)%nat -> latest_with N (j mod N) 0 gs None = nth_error gs j.
Proof.
  intros HN. induction gs as [|g gs IH] using rev_ind; intros H1 H2; [cbn in H1; lia|]. rewrite app_length in *. cbn [length] in *. rewrite latest_with_snoc, Nat.add_0_l.
  destruct (Nat.eqb_spec (length gs mod N) (j mod N)) as [E|E].
  - assert (length gs = j) by (apply (same_number N); lia). subst j. rewrite nth_error_app2, Nat.sub_diag by lia. reflexivity.
  - assert (length gs <> j) by congruence. rewrite nth_error_app1 by lia. apply IH; lia.
Qed.

(** ** C151 *)
(** Refuted: when the cache is full, a key frame that is written while the first packet of the oldest group is being
    delivered makes SendTo panic, whatever else the cache holds, if that group has a second packet. *)
Theorem C151_live_refuted : forall (St : Type) (at_ : St -> nat -> packet) n c0 os s0 c s h rs wr k1 k2 g rest kn, 0 < n -> new_cache_of n = Ok c0 ->
  live_run at_ (c0, s0) os = ((c, s), rs) -> fst (fst (spec_live_run at_ (Z.to_nat n) ([], s0) os)) = h ->
  n <= len (groups h) -> lastn (Z.to_nat n) (groups h) = (k1 :: k2 :: g) :: rest ->
  (forall k t, In k (last_of KMeta h ++ last_of KVideoSeq h ++ last_of KAudioSeq h) -> snd (wr k t) = ([], Ok tt)) ->
  (forall t, snd (wr k1 t) = ([kn], Ok tt) /\ is_key (at_ (fst (wr k1 t)) kn) = true) ->
  snd (live_send at_ wr (c, s)) = Panic.
Proof.
  intros St at_ n c0 os s0 c s h rs wr k1 k2 g rest kn Hn Hc HR HH HF HL HQ HK. pose proof (same_run at_ _ os c0 [] s0 (live_new _ _ Hc)) as P. cbv zeta in P. rewrite HR in P. apply proj1 in P. cbn [fst] in P. assert (PL : Live (Z.to_nat n) c h) by (rewrite <- HH; exact P). clear P. rename PL into P.
  destruct (same_send at_ _ wr c h s P) as (_ & _ & ->). set (N := Z.to_nat n) in *. assert (HN : (0 < N)%nat) by (unfold N; lia). clear HR HH P.
  assert (HD : forall y t, incl (last_of y h) (last_of KMeta h ++ last_of KVideoSeq h ++ last_of KAudioSeq h) -> exists t', spec_header at_ N wr y (h, t) = ((h, t'), Ok tt)).
  { intros y t HI. unfold spec_header. cbn [fst]. destruct (last_of y h) as [|k l]; [exists t; reflexivity|]. unfold spec_call. cbn [fst snd]. specialize (HQ k t (HI k (or_introl eq_refl))).
    destruct (wr k t) as [t' x]. cbn [snd] in HQ. subst x. exists t'. reflexivity. }
  unfold spec_send. destruct (HD KMeta s ltac:(apply incl_appl, incl_refl)) as (s1 & ->). cbn [pseq].
  destruct (HD KVideoSeq s1 ltac:(apply incl_appr, incl_appl, incl_refl)) as (s2 & ->). cbn [pseq].
  destruct (HD KAudioSeq s2 ltac:(apply incl_appr, incl_appr, incl_refl)) as (s3 & ->). cbn [pseq].
  unfold spec_gop_send. cbn [fst]. set (T := length (groups h)) in *. assert (HT : (N <= T)%nat) by (unfold N, T, len in *; lia).
  destruct N as [|N'] eqn:EN; [lia|]. rewrite <- EN in *. remember ((T - N) mod N)%nat as st eqn:Est. replace (spec_groups at_ N wr st N 0 (h, s3)) with (spec_groups at_ N wr st (S N') 0 (h, s3)) by (rewrite <- EN; reflexivity). cbn [spec_groups fst]. fold T.
  replace (0 <? T)%nat with true by lia. rewrite Nat.add_0_r. assert (HST : (st < N)%nat) by (subst st; apply Nat.mod_upper_bound; lia). rewrite (Nat.mod_small st N HST).
  assert (GN : group_now N st h = Some (k1 :: k2 :: g)).
  { unfold group_now. subst st. rewrite latest_nth by (fold T; lia). unfold lastn in HL. fold T in HL.
    rewrite <- (firstn_skipn (T - N) (groups h)), HL. rewrite nth_error_app2 by (rewrite firstn_length; lia). rewrite firstn_length. fold T. replace (T - N - Nat.min (T - N) T)%nat with 0%nat by lia. reflexivity. }
  rewrite GN. cbn [length spec_group fst]. rewrite GN. cbn [nth_error]. unfold spec_call. cbn [fst snd]. destruct (HK s3) as [K1 K2]. destruct (wr k1 s3) as [s4 x]. cbn [fst snd] in K1, K2. subst x.
  cbn [record_all]. assert (KD : kind_of (at_ s4 kn) = Some KKey).
  { unfold is_key in K2. apply andb_prop in K2 as [Q1 Q2]. unfold kind_of, kind_video. rewrite Q1. destruct (p_header _) as [[[v|] a]|]; try discriminate. destruct (v_seq v); [discriminate|]. cbn in Q2. rewrite Q2. reflexivity. }
  rewrite KD. cbn [record rejects pseq spec_group fst].
  assert (GN2 : group_now N st (h ++ [(KKey, kn)]) = Some [kn]).
  { unfold group_now. rewrite groups_snoc. unfold group. cbn [fst snd]. rewrite latest_with_snoc, Nat.add_0_l. fold T.
    replace (T mod N =? st)%nat with true; [reflexivity|]. symmetry. apply Nat.eqb_eq. subst st. replace T with (T - N + 1 * N)%nat at 1 by lia. apply Nat.mod_add. lia. }
  rewrite GN2. reflexivity.
Qed.
Print Assumptions C151_live_refuted.

(** Proved when no key frame is written meanwhile: SendTo hands over the headers, each as it is when its turn comes, the
    complete groups, and the last group as it is when its turn comes, and does not panic. *)
Definition no_key_meanwhile {St} (at_ : St -> nat -> packet) (wr : live_writer St) : Prop := forall k t,
  Forall (fun j => is_key (at_ (fst (wr k t)) j) = false /\ kind_of (at_ (fst (wr k t)) j) <> None) (fst (snd (wr k t))).
Definition live_replay {St} (at_ : St -> nat -> packet) (N : nat) (wr : live_writer St) (x : history * St) : (history * St) * res unit :=
  let header y x := call_list at_ N wr (last_of y (fst x)) x in
  pseq (header KMeta x) (fun x =>
  pseq (header KVideoSeq x) (fun x =>
  pseq (header KAudioSeq x) (fun x =>
  pseq (call_list at_ N wr (concat (removelast (lastn N (groups (fst x))))) x) (fun x =>
  call_list at_ N wr (last (lastn N (groups (fst x))) []) x)))).

(** The last group grows, the others stay. *)
Definition grows (a b : list (list nat)) : Prop := (a = [] /\ b = []) \/ exists l g e, a = l ++ [g] /\ b = l ++ [g ++ e].
Lemma grows_refl a : grows a a.
Proof. destruct (snoc_inv a) as [->|(l & g & ->)]; [left; auto|right; exists l, g, []; rewrite app_nil_r; auto]. Qed.
Lemma grows_trans a b c : grows a b -> grows b c -> grows a c.
Proof.
  intros [[-> ->]|(l & g & e & -> & ->)] [[H ->]|(l' & g' & e' & H & ->)]; [left; auto| | |].
  - destruct l'; discriminate.
  - destruct l; discriminate.
  - apply app_inj_tail in H as [-> <-]. right. exists l', g, (e ++ e'). rewrite app_assoc. auto.
Qed.
Lemma grows_nth a b j g : grows a b -> nth_error a j = Some g -> exists e, nth_error b j = Some (g ++ e).
Proof.
  intros [[-> ->]|(l & g' & e & -> & ->)] H; [destruct j; discriminate|]. destruct (Nat.lt_ge_cases j (length l)) as [L|L].
  - rewrite nth_error_app1 in * by exact L. exists []. rewrite app_nil_r. exact H.
  - rewrite nth_error_app2 in * by exact L. destruct (j - length l)%nat as [|m]; [|destruct m; discriminate]. cbn in *. injection H as <-. exists e. reflexivity.
Qed.
Lemma grows_length a b : grows a b -> length b = length a.
Proof. intros [[-> ->]|(l & g & e & -> & ->)]; [reflexivity|]. rewrite !app_length. reflexivity. Qed.
Lemma skipn_nth {A} (l : list A) i x : nth_error l i = Some x -> skipn i l = x :: skipn (S i) l.
Proof. revert i. induction l as [|y l IH]; intros [|i] H; cbn in *; try discriminate; [injection H as ->; reflexivity|]. apply IH, H. Qed.
Section NoKey.
  Context {St : Type} (at_ : St -> nat -> packet) (N : nat) (wr : live_writer St) (HNK : no_key_meanwhile at_ wr).
  Lemma record_grows v k h : is_key (v k) = false -> grows (groups h) (groups (fst (record N h (kind_of (v k)) k))).
  Proof.
    intros HK. unfold record. destruct (kind_of (v k)) as [x|] eqn:EK; [|apply grows_refl]. destruct (rejects N h x); cbn [fst]; [apply grows_refl|]. rewrite groups_snoc. unfold group. cbn [fst snd].
    destruct x; try apply grows_refl.
    - exfalso. unfold kind_of, kind_video, kind_audio, is_key in *. destruct (p_type (v k) =? 0).
      + destruct (p_header (v k)) as [[[vh|] a]|]; try discriminate. destruct (v_seq vh); [discriminate|]. destruct (v_key vh); [discriminate|]. destruct (v_inter vh); discriminate.
      + destruct (p_type (v k) =? 1); [|destruct (p_type (v k) =? 2); discriminate]. destruct (p_header (v k)) as [[vh [a|]]|]; try discriminate. destruct (a_aac a && a_seq a); discriminate.
    - destruct (snoc_inv (groups h)) as [->|(l & g & ->)]; [left; auto|]. right. exists l, g, [k]. rewrite app_last_snoc. auto.
  Qed.
  Lemma call_grows k x : grows (groups (fst x)) (groups (fst (fst (spec_call at_ N wr k x)))) /\ (snd (snd (wr k (snd x))) <> Panic -> snd (spec_call at_ N wr k x) <> Panic).
  Proof.
    destruct x as [h s]. unfold spec_call. cbn [fst snd]. pose proof (HNK k s) as HF. destruct (wr k s) as [s' [ks r]]. cbn [fst snd] in *.
    assert (G : forall h, grows (groups h) (groups (fst (record_all N (at_ s') h ks))) /\ snd (record_all N (at_ s') h ks) = Ok tt).
    { clear h. induction ks as [|j ks IH]; intros h; [split; [apply grows_refl|reflexivity]|]. apply Forall_cons_iff in HF as [[H1 H2] H3]. cbn [record_all]. pose proof (record_grows (at_ s') j h H1) as R.
      assert (NP : snd (record N h (kind_of (at_ s' j)) j) <> Panic) by (unfold record; destruct (kind_of (at_ s' j)); [destruct (rejects _ _ _); discriminate|congruence]).
      destruct (record N h (kind_of (at_ s' j)) j) as [h' [u|e| |]]; cbn [fst snd] in *; try congruence; (destruct (IH H3 h') as [A B]; split; [eapply grows_trans; eassumption|exact B]). }
    specialize (G h). destruct (record_all N (at_ s') h ks) as [h' rw]. cbn [fst snd] in *. destruct G as [G ->]. split; [exact G|tauto].
  Qed.
  Lemma list_grows ks : forall x, grows (groups (fst x)) (groups (fst (fst (call_list at_ N wr ks x)))).
  Proof.
    induction ks as [|k ks IH]; intros x; [apply grows_refl|]. cbn [call_list]. pose proof (proj1 (call_grows k x)) as G. destruct (spec_call at_ N wr k x) as [x' [u|e| |]]; cbn [pseq fst] in *; try exact G.
    eapply grows_trans; [exact G|apply IH].
  Qed.
  Lemma list_no_panic ks : (forall k t, snd (snd (wr k t)) <> Panic) -> forall x, snd (call_list at_ N wr ks x) <> Panic.
  Proof.
    intros HP. induction ks as [|k ks IH]; intros x; [discriminate|]. cbn [call_list]. pose proof (proj2 (call_grows k x) (HP k _)) as G. destruct (spec_call at_ N wr k x) as [x' [u|e| |]]; cbn [pseq snd] in *; try exact G. apply IH.
  Qed.
  Lemma header_list y x : spec_header at_ N wr y x = call_list at_ N wr (last_of y (fst x)) x.
  Proof.
    unfold spec_header, last_of. destruct (latest _ (fst x)) as [i|]; cbn [option_map opt call_list]; [|reflexivity]. destruct (spec_call at_ N wr (snd i) x) as [x' [[]|e| |]]; reflexivity.
  Qed.
  (** The packets of the group with number j. *)
  Lemma group_list gs j g : (0 < N)%nat -> nth_error gs j = Some g -> (length gs <= j + N)%nat -> forall n i x, grows gs (groups (fst x)) -> (i + n = length g)%nat ->
    spec_group at_ N wr (j mod N) n i x = call_list at_ N wr (skipn i g) x.
  Proof.
    intros HN HJ HT. induction n as [|n IH]; intros i x HG HI.
    - rewrite skipn_all2 by lia. reflexivity.
    - cbn [spec_group]. destruct (grows_nth _ _ _ _ HG HJ) as (e & HE).
      assert (HJT : (j < length gs)%nat) by (apply nth_error_Some; rewrite HJ; discriminate).
      unfold group_now. rewrite latest_nth by (rewrite ?(grows_length _ _ HG); lia). rewrite HE. rewrite nth_error_app1 by lia.
      destruct (nth_error g i) as [k|] eqn:EK; [|apply nth_error_None in EK; lia].
      pose proof (skipn_nth _ _ _ EK) as ES.
      rewrite ES. cbn [call_list]. pose proof (proj1 (call_grows k x)) as G. destruct (spec_call at_ N wr k x) as [x' [u|e'| |]]; cbn [pseq fst] in *; try reflexivity. apply IH; [eapply grows_trans; eassumption|lia].
  Qed.
  (** The groups from the i-th kept on. *)
  Lemma groups_list gs : (0 < N)%nat -> forall n i x, grows gs (groups (fst x)) -> (i + n = N)%nat -> (i < length gs)%nat ->
    spec_groups at_ N wr ((length gs - N) mod N) n i x =
    (let rest := skipn (length gs - N + i) gs in pseq (call_list at_ N wr (concat (removelast rest)) x) (fun x => call_list at_ N wr (match rest with [] => [] | _ => last (groups (fst x)) [] end) x)).
  Proof.
    intros HN. induction n as [|n IH]; intros i x HG HI HT; cbv zeta.
    - cbn [spec_groups]. rewrite skipn_all2 by lia. reflexivity.
    - cbn [spec_groups]. rewrite (grows_length _ _ HG). replace (i <? length gs)%nat with true by lia.
      set (j := (length gs - N + i)%nat). assert (EM : (((length gs - N) mod N + i) mod N = j mod N)%nat) by (unfold j; apply Nat.add_mod_idemp_l; lia). rewrite EM.
      assert (HB : (length gs <= j + N)%nat) by (unfold j; lia).
      destruct (Nat.lt_ge_cases j (length gs)) as [HJ|HJ].
      + destruct (nth_error gs j) as [g|] eqn:EJ; [|apply nth_error_None in EJ; lia].
        pose proof (skipn_nth _ _ _ EJ) as ES.
        destruct (grows_nth _ _ _ _ HG EJ) as (e & HE).
        unfold group_now. rewrite latest_nth by (rewrite ?(grows_length _ _ HG); lia). rewrite HE.
        (* the group is what it is now *)
        rewrite (group_list (groups (fst x)) j (g ++ e) HN HE ltac:(rewrite (grows_length _ _ HG); exact HB) (length (g ++ e)) 0 x (grows_refl _) ltac:(lia)). cbn [skipn]. rewrite ES.
        destruct (skipn (S j) gs) as [|g2 r] eqn:ER.
        * (* the last one *)
          assert (EL : length gs = S j) by (apply (f_equal (@length _)) in ER; rewrite skipn_length in ER; cbn in ER; lia).
          assert (LG : last (groups (fst x)) [] = g ++ e).
          { pose proof (grows_length _ _ HG) as Q. destruct (snoc_inv (groups (fst x))) as [E|(l & z & E)]; [rewrite E in Q; cbn in Q; lia|]. rewrite E in *. rewrite last_last. rewrite app_length in Q. cbn in Q.
            rewrite nth_error_app2 in HE by lia. replace (j - length l)%nat with 0%nat in HE by lia. cbn in HE. congruence. }
          cbn [removelast concat call_list pseq]. rewrite LG.
          assert (DONE : forall y, grows gs (groups (fst y)) -> spec_groups at_ N wr ((length gs - N) mod N) n (S i) y = (y, Ok tt)).
          { intros y HY. destruct n as [|n']; [reflexivity|]. cbn [spec_groups]. rewrite (grows_length _ _ HY). destruct (Nat.ltb_spec (S i) (length gs)) as [L|L]; [exfalso; unfold j in *; lia|reflexivity]. }
          pose proof (list_grows (g ++ e) x) as LGR. destruct (call_list at_ N wr (g ++ e) x) as [y [[]|e'| |]]; cbn [pseq fst] in *; try reflexivity. apply DONE. eapply grows_trans; eassumption.
        * assert (e = []). { destruct HG as [[-> _]|(l & z & e0 & -> & E2)]; [destruct j; discriminate|]. rewrite app_length in HB. cbn in HB.
            assert (j < length l)%nat. { apply (f_equal (@length _)) in ER. rewrite skipn_length, app_length in ER. cbn [length] in ER. lia. }
            rewrite E2, nth_error_app1 in HE by lia. rewrite nth_error_app1 in EJ by lia. rewrite HE in EJ. injection EJ as EJ. apply (f_equal (@length _)) in EJ. rewrite app_length in EJ. destruct e; [reflexivity|cbn in EJ; lia]. }
          subst e. rewrite app_nil_r. change (removelast (g :: g2 :: r)) with (g :: removelast (g2 :: r)). cbn [concat]. rewrite call_list_app.
          pose proof (list_grows g x) as LGR. destruct (call_list at_ N wr g x) as [y [u|e'| |]]; cbn [pseq fst] in *; try reflexivity.
          assert (LT : (S j < length gs)%nat). { apply (f_equal (@length _)) in ER. rewrite skipn_length in ER. cbn in ER. lia. }
          rewrite IH; [|eapply grows_trans; eassumption|lia|unfold j in *; lia]. cbv zeta. replace (length gs - N + S i)%nat with (S j) by (unfold j; lia). rewrite ER. reflexivity.
      + exfalso. unfold j in HJ. lia.
  Qed.
  Lemma send_replay x : spec_send at_ N wr x = live_replay at_ N wr x.
  Proof.
    unfold spec_send, live_replay. rewrite header_list. apply pseq_ext. intros x1. rewrite header_list. apply pseq_ext. intros x2. rewrite header_list. apply pseq_ext. intros x3.
    unfold spec_gop_send. destruct N as [|N'] eqn:EN.
    - cbn [spec_groups]. rewrite lastn_0. cbn [removelast concat call_list pseq]. rewrite lastn_0. reflexivity.
    - rewrite <- EN in *. destruct (groups (fst x3)) as [|g0 gs0] eqn:EG.
      + rewrite lastn_nil. cbn [removelast concat call_list pseq]. rewrite EG, lastn_nil. cbn [last call_list length].
        replace (spec_groups at_ N wr ((0 - N) mod N) N 0 x3) with (spec_groups at_ N wr ((0 - N) mod N) (S N') 0 x3) by (rewrite <- EN; reflexivity). cbn [spec_groups]. rewrite EG. reflexivity.
      + rewrite <- EG. rewrite groups_list by (rewrite ?EG; cbn; try apply grows_refl; lia). cbv zeta. rewrite Nat.add_0_r. fold (lastn N (groups (fst x3))).
        pose proof (list_grows (concat (removelast (lastn N (groups (fst x3))))) x3) as LG. destruct (call_list at_ N wr (concat (removelast (lastn N (groups (fst x3))))) x3) as [y [u|e| |]]; cbn [pseq fst] in *; try reflexivity.
        f_equal. pose proof (grows_length _ _ LG) as Q.
        assert (NE : lastn N (groups (fst x3)) <> []). { intros E. apply (f_equal (@length _)) in E. unfold lastn in E. rewrite skipn_length, EG in E. cbn [length] in E. lia. }
        destruct (lastn N (groups (fst x3))) as [|a l] eqn:EL; [contradiction|].
        unfold lastn. destruct (snoc_inv (groups (fst y))) as [E|(m & z & E)]; [rewrite E in Q; rewrite EG in Q; discriminate|]. rewrite E, last_last. rewrite app_length. cbn [length].
        rewrite skipn_app. replace (length m + 1 - N - length m)%nat with 0%nat by lia. cbn [skipn]. rewrite last_last. reflexivity.
  Qed.
End NoKey.

Theorem C151_live_partial : forall (St : Type) (at_ : St -> nat -> packet) n c0 os s0 c s rs wr, new_cache_of n = Ok c0 ->
  live_run at_ (c0, s0) os = ((c, s), rs) -> no_key_meanwhile at_ wr ->
  let h := fst (fst (spec_live_run at_ (Z.to_nat n) ([], s0) os)) in
  let a := live_send at_ wr (c, s) in let b := live_replay at_ (Z.to_nat n) wr (h, s) in
  snd (fst a) = snd (fst b) /\ snd a = snd b /\ ((forall k t, snd (snd (wr k t)) <> Panic) -> snd a <> Panic).
Proof.
  intros St at_ n c0 os s0 c s rs wr Hc HR HNK h. cbv zeta. pose proof (same_run at_ _ os c0 [] s0 (live_new _ _ Hc)) as P. cbv zeta in P. rewrite HR in P. apply proj1 in P. cbn [fst] in P.
  assert (PL : Live (Z.to_nat n) c h) by exact P. destruct (same_send at_ _ wr c h s PL) as (_ & A & B). rewrite send_replay in A, B by exact HNK. split; [exact A|]. split; [exact B|].
  intros HP. rewrite B. unfold live_replay.
  assert (K : forall (x : (history * St) * res unit) f, snd x <> Panic -> (forall y, snd (f y) <> Panic) -> snd (pseq x f) <> Panic) by (intros [x [u|e| |]] f H1 H2; cbn [pseq]; auto).
  repeat (apply K; [apply list_no_panic; assumption|intros ?]). apply list_no_panic; assumption.
Qed.
Print Assumptions C151_live_partial.

(** When nothing is written meanwhile, this is the SendTo of C146. *)
Theorem C150_quiet : forall (St : Type) (at_ : St -> nat -> packet) n c0 os s0 c s rs (wr : pointer_writer St), new_cache_of n = Ok c0 ->
  live_run at_ (c0, s0) os = ((c, s), rs) ->
  let a := live_send at_ (fun k t => (fst (wr k t), ([], snd (wr k t)))) (c, s) in (snd (fst a), snd a) = cache_send_to wr c s.
Proof.
  intros St at_ n c0 os s0 c s rs wr Hc HR. cbv zeta. pose proof (same_run at_ _ os c0 [] s0 (live_new _ _ Hc)) as P. cbv zeta in P. rewrite HR in P. apply proj1 in P. cbn [fst] in P.
  match type of P with Live _ _ ?h0 => set (h := h0) in P end. set (w := fun k t => (fst (wr k t), ([], snd (wr k t)))).
  assert (HNK : no_key_meanwhile at_ w) by (intros k t; constructor). destruct (same_send at_ _ w c h s P) as (_ & A & B). rewrite send_replay in A, B by exact HNK.
  rewrite (sim_send _ _ _ wr s (proj1 P)). rewrite A, B.
  assert (CL : forall ks t, call_list at_ (Z.to_nat n) w ks (h, t) = ((h, fst (call_each wr ks t)), snd (call_each wr ks t))).
  { induction ks as [|k ks IH]; intros t; [reflexivity|]. cbn [call_list call_each]. unfold spec_call, w at 1. cbn [fst snd record_all]. destruct (wr k t) as [t' [u|e| |]]; cbn [fst snd pseq]; try reflexivity. apply IH. }
  assert (CA : forall k1 k2 t f, (forall t, f (h, t) = ((h, fst (call_each wr k2 t)), snd (call_each wr k2 t))) ->
    pseq (call_list at_ (Z.to_nat n) w k1 (h, t)) f = ((h, fst (call_each wr (k1 ++ k2) t)), snd (call_each wr (k1 ++ k2) t))).
  { intros k1 k2 t f Hf. rewrite CL. revert t. induction k1 as [|k k1 IH]; intros t; cbn [call_each app fst snd pseq]; [apply Hf|]. destruct (wr k t) as [t' [u|e| |]]; cbn [fst snd pseq]; try reflexivity. apply IH. }
  unfold pointer_replay, group_replay, live_replay. cbn [fst].
  assert (EC : forall l : list (list nat), concat l = concat (removelast l) ++ last l []).
  { intros l. destruct (snoc_inv l) as [->|(l' & x & ->)]; [reflexivity|]. rewrite removelast_last, last_last, concat_app. cbn. rewrite app_nil_r. reflexivity. }
  rewrite EC. rewrite !(CA _ (last_of KVideoSeq h ++ last_of KAudioSeq h ++ concat (removelast (lastn (Z.to_nat n) (groups h))) ++ last (lastn (Z.to_nat n) (groups h)) [])).
  - destruct (call_each wr _ s); reflexivity.
  - intros t1. cbn [fst]. apply CA. intros t2. cbn [fst]. apply CA. intros t3. cbn [fst]. apply CA. intros t4. cbn [fst]. apply CL.
Qed.
Print Assumptions C150_quiet.

(** Samples: packets 0 and 2 are key frames, 1 and 3 inter frames, 4 is metadata; the state is what has been received. *)
Definition ex_at (_ : list nat) (k : nat) : packet := match k with 0%nat | 2%nat => ex_key [1] | 4%nat => mkP PktMetadata 0 0 0 None [] None | _ => ex_inter [2] end.
(** A writer that, on receiving packet a, writes packet b to the cache. *)
Definition writes_on (a b : nat) : live_writer (list nat) := fun k s => (s ++ [k], (if Nat.eqb k a then [b] else [], Ok tt)).
Example C151_refuted_example : let os := [LOp (GWrite 4); LOp (GWrite 0); LOp (GWrite 1)] in
  match new_cache_of 1 with
  | Ok c0 => let '(x, rs) := live_run ex_at (c0, []) os in
      let h := fst (fst (spec_live_run ex_at 1 ([], []) os)) in
      rs = [Ok tt; Ok tt; Ok tt] /\ lastn 1 (groups h) = [[0; 1]%nat] /\
      last_of KMeta h ++ last_of KVideoSeq h ++ last_of KAudioSeq h = [4%nat] /\
      (forall t, snd (writes_on 0 2 4%nat t) = ([], Ok tt)) /\
      (forall t, snd (writes_on 0 2 0%nat t) = ([2%nat], Ok tt) /\ is_key (ex_at (fst (writes_on 0 2 0%nat t)) 2) = true) /\
      live_send ex_at (writes_on 0 2) x = ((fst (fst (live_send ex_at (writes_on 0 2) x)), [4; 0]%nat), Panic)
  | _ => False
  end.
Proof. vm_compute. auto 10. Qed.
(** An inter frame written while metadata is being delivered is delivered too; one written while the key frame is, not. *)
Example C151_partial_example : let os := [LOp (GWrite 4); LOp (GWrite 0); LOp (GWrite 1)] in
  no_key_meanwhile ex_at (writes_on 4 3) /\ no_key_meanwhile ex_at (writes_on 0 3) /\
  match new_cache_of 1 with
  | Ok c0 => let '(x, rs) := live_run ex_at (c0, []) os in
      (let '((_, got), r) := live_send ex_at (writes_on 4 3) x in got = [4; 0; 1; 3]%nat /\ r = Ok tt) /\
      (let '((_, got), r) := live_send ex_at (writes_on 0 3) x in got = [4; 0; 1]%nat /\ r = Ok tt)
  | _ => False
  end.
Proof.
  cbv zeta. split; [|split; [|vm_compute; auto]]; intros k t; unfold writes_on; cbn [fst snd]; destruct (Nat.eqb k _); repeat constructor; discriminate.
Qed.
(** A group that is replaced while it is being sent, by one that has grown as long meanwhile: SendTo goes on in the new one,
    as C150 says. *)
Example C150_example : let os := [LOp (GWrite 0); LOp (GWrite 1); LOp (GWrite 1)] in
  let wr : live_writer (list nat) := fun k s => (s ++ [k], (if Nat.eqb k 0 then [2; 3; 3; 3]%nat else [], Ok tt)) in
  match new_cache_of 1 with
  | Ok c0 => let '((_, got), rs) := live_run ex_at (c0, []) (os ++ [LSend wr]) in got = [0; 3; 3]%nat /\ rs = [Ok tt; Ok tt; Ok tt; Ok tt]
  | _ => False
  end.
Proof. vm_compute. auto. Qed.
