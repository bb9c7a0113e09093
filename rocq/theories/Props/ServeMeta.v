(** Property C211: what every FLV subscriber of one GOP cache gets, metadata with any number of commands included. *)
From Coq Require Import String.
From Verif Require Import Base.Go Base.GoFacts Base.IO Model.AmfTypes Model.Amf3 Model.Amf0 Model.Metadata Model.Packet Model.Gop Model.GopPtr Model.Flv Model.Relay
  Spec.Gop Spec.GopPtr Spec.Command Spec.FanMeta Proofs.Gop Proofs.GopPtr Props.Gop Props.Fan Props.GopPtr Props.Serve Props.FanMeta.
Import ListNotations.

(** The packet p as the subscriber finds it that comes after n others: metadata have lost the commands the others took away, other packets are as they were. *)
Inductive reaches (n : nat) (p : packet) : packet -> Prop :=
| Re_media : p_type p <> PktMetadata -> reaches n p p
| Re_meta d : p_type p = PktMetadata -> after_mixers n (p_data p) d -> reaches n p (set_data d p).
(** Subscribers served one after the other, all of them without an error. *)
Inductive all_served (c : cache_of_type nat) : list nat -> flv_state -> flv_state -> Prop :=
| As_none s : all_served c [] s s
| As_one i is s s1 s2 : cache_send_to (flv_subscriber i) c s = (s1, Ok tt) -> all_served c is s1 s2 -> all_served c (i :: is) s s2.

Lemma mux_leaves x p ts w : snd (snd (mixer_mux x p ts w)) = Ok tt -> exists ty d, mux_select p = Ok (ty, d) /\ snd (fst (mixer_mux x p ts w)) = set_data d p.
Proof.
  intros H. destruct (mux_select p) as [[ty d]|e| |] eqn:E.
  - exists ty, d. split; [reflexivity|]. pose proof (proj2 (run1_select p p (x, ts, w) ty d E E)) as R. unfold run1 in R. destruct (mixer_mux x p ts w) as [[x' p'] r]. exact R.
  - unfold mixer_mux, mux in H. rewrite E in H. discriminate H.
  - unfold mixer_mux, mux in H. rewrite E in H. discriminate H.
  - unfold mixer_mux, mux in H. rewrite E in H. discriminate H.
Qed.
(** One subscriber, distinct packets: it gets them as they are, and leaves each as Mux does. *)
Lemma serve_each ks i : NoDup ks -> forall s,
  let a := call_each (flv_subscriber i) ks s in
  (fs_mixers (fst a) i, snd a) = mux_own (fs_mixers s i) (map (fs_packets s) ks) /\
  (forall j, j <> i -> fs_mixers (fst a) j = fs_mixers s j) /\
  (snd a = Ok tt -> forall k, In k ks -> exists ty d, mux_select (fs_packets s k) = Ok (ty, d) /\ fs_packets (fst a) k = set_data d (fs_packets s k)) /\
  (forall k, ~ In k ks -> fs_packets (fst a) k = fs_packets s k).
Proof.
  induction ks as [|k ks IH]; intros ND s; cbv zeta; cbn [call_each map mux_own].
  - cbn [fst snd]. split; [reflexivity|]. split; [auto|]. split; [intros _ k []|auto].
  - inversion ND as [|? ? N1 N2]; subst. destruct (fs_mixers s i) as [x w] eqn:EX. cbn [fst snd].
    pose proof (mux_leaves x (fs_packets s k) (p_ts (fs_packets s k)) w) as ML.
    destruct (mixer_mux x (fs_packets s k) (p_ts (fs_packets s k)) w) as [[x1 q1] [w1 r1]] eqn:EM. cbn [fst snd] in ML.
    set (s1 := mkFS (upd (fs_packets s) k q1) (upd (fs_mixers s) i (x1, w1))).
    assert (EW : flv_subscriber i k s = (s1, r1)) by (unfold flv_subscriber; rewrite EX, EM; reflexivity). rewrite EW.
    assert (HX1 : fs_mixers s1 i = (x1, w1)) by (unfold s1, upd; cbn [fs_mixers]; rewrite Nat.eqb_refl; reflexivity).
    assert (HJ1 : forall j, j <> i -> fs_mixers s1 j = fs_mixers s j) by (intros j Hj; unfold s1, upd; cbn [fs_mixers]; destruct (Nat.eqb_spec j i); [contradiction|reflexivity]).
    assert (HP1 : fs_packets s1 k = q1) by (unfold s1, upd; cbn [fs_packets]; rewrite Nat.eqb_refl; reflexivity).
    assert (HP2 : forall j, j <> k -> fs_packets s1 j = fs_packets s j) by (intros j Hj; unfold s1, upd; cbn [fs_packets]; destruct (Nat.eqb_spec j k); [contradiction|reflexivity]).
    destruct r1 as [[]|e| |].
    + pose proof (IH N2 s1) as P. cbv zeta in P. rewrite HX1 in P. destruct P as (A & B & C & D).
      replace (map (fs_packets s1) ks) with (map (fs_packets s) ks) in A by (apply map_ext_in; intros j Hj; symmetry; apply HP2; congruence).
      split; [exact A|]. split; [intros j Hj; rewrite B, HJ1 by exact Hj; reflexivity|]. split.
      * intros HR j [<-|Hj].
        -- destruct (ML eq_refl) as (ty & d & M1 & M2). exists ty, d. split; [exact M1|]. rewrite D by exact N1. rewrite HP1. exact M2.
        -- destruct (C HR j Hj) as (ty & d & M1 & M2). assert (j <> k) by congruence. rewrite HP2 in M1, M2 by assumption. exists ty, d. auto.
      * intros j Hj. rewrite D by (intros X; apply Hj; right; exact X). apply HP2. intros ->. apply Hj. left. reflexivity.
    + cbn [fst snd]. rewrite HX1. split; [reflexivity|]. split; [exact HJ1|]. split; [discriminate|]. intros j Hj. apply HP2. intros ->. apply Hj. left. reflexivity.
    + cbn [fst snd]. rewrite HX1. split; [reflexivity|]. split; [exact HJ1|]. split; [discriminate|]. intros j Hj. apply HP2. intros ->. apply Hj. left. reflexivity.
    + cbn [fst snd]. rewrite HX1. split; [reflexivity|]. split; [exact HJ1|]. split; [discriminate|]. intros j Hj. apply HP2. intros ->. apply Hj. left. reflexivity.
Qed.
Lemma after_snoc_mixer n p q r : after_mixers n p q -> without_command q r -> after_mixers (S n) p r.
Proof.
  intros H W. induction H as [p|n p q q' W1 A IH|n p q' N A IH].
  - exact (Am_muxed _ _ _ _ W (Am_none _)).
  - exact (Am_muxed _ _ _ _ W1 (IH W)).
  - exact (Am_refused _ _ _ N (IH W)).
Qed.
Lemma after_bytes n p q : is_bytes p -> after_mixers n p q -> is_bytes q.
Proof. intros HB H. induction H as [p|n p q r W A IH|n p r N A IH]; [exact HB|apply IH, (without_bytes _ _ HB W)|apply IH, HB]. Qed.
Lemma reaches_next n p q ty d : is_bytes (p_data p) -> reaches n p q -> mux_select q = Ok (ty, d) -> reaches (S n) p (set_data d q).
Proof.
  intros HB [HT|d0 HT HA] HS.
  - rewrite (select_media p HT _ _ HS). replace (set_data (p_data p) p) with p by (destruct p; reflexivity). now apply Re_media.
  - change (set_data d (set_data d0 p)) with (set_data d p). apply Re_meta; [exact HT|]. apply after_snoc_mixer with d0; [exact HA|].
    rewrite select_meta in HS by exact HT. cbn [p_data set_data] in HS. destruct (del_exactly d0 (after_bytes _ _ _ HB HA)) as [(q1 & E & W)|(N & _)].
    + rewrite E in HS. cbn [bind] in HS. injection HS as _ <-. exact W.
    + destruct (snd (del_meta_header decode0 (fresh (bytes_reader [])) d0)) as [q1|e| |]; [elim (N q1 eq_refl)|discriminate HS..].
Qed.

(** ** C211 *)
(** The cache replays the pointers ks, all different. The subscriber that comes after others that were served without an error gets, in the place of each packet, the packet
    without the commands those others took away. *)
Theorem C211_subscribers : forall n c0 os s0 c s rs, new_cache_of n = Ok c0 -> gop_run_ptr fs_packets c0 s0 os = (c, (s, rs)) ->
  (forall k, is_bytes (p_data (fs_packets s k))) ->
  exists ks, (forall S (wr : pointer_writer S) t, cache_send_to wr c t = call_each wr ks t) /\
  forall before s1 i, NoDup ks -> ~ In i before -> all_served c before s s1 ->
    exists f, (forall k, In k ks -> reaches (length before) (fs_packets s k) (f k)) /\
    let '(s', r) := cache_send_to (flv_subscriber i) c s1 in (fs_mixers s' i, r) = mux_own (fs_mixers s i) (map f ks).
Proof.
  intros n c0 os s0 c s rs Hc HR HB. destruct (sim_run fs_packets _ os c0 [] s0 (sim_new _ _ Hc)) as [E1 E2]. rewrite HR in E1, E2. cbn [fst snd] in E1, E2.
  destruct (spec_run fs_packets (Z.to_nat n) [] s0 os) as [h [s' rs']]. cbn [fst snd] in E1, E2. injection E1 as <- <-. set (ks := pointer_replay (Z.to_nat n) h) in *. exists ks.
  assert (SD : forall S (wr : pointer_writer S) t, cache_send_to wr c t = call_each wr ks t) by (intros S wr t; apply sim_send, E2). split; [exact SD|].
  intros before s1 i ND HI HS.
  assert (G : forall m s2, (forall k, In k ks -> reaches m (fs_packets s k) (fs_packets s2 k)) -> fs_mixers s2 i = fs_mixers s i -> all_served c before s2 s1 ->
    (forall k, In k ks -> reaches (m + length before) (fs_packets s k) (fs_packets s1 k)) /\ fs_mixers s1 i = fs_mixers s i).
  { clear HS. induction before as [|b before IH]; intros m s2 M1 M2 HS; inversion HS as [|? ? ? s3 ? E3 A]; subst.
    - cbn [length]. rewrite Nat.add_0_r. auto.
    - rewrite SD in E3. destruct (serve_each ks b ND s2) as (_ & B & C & _). rewrite E3 in B, C. cbn [fst snd] in B, C. cbn [length]. rewrite <- Nat.add_succ_comm.
      apply (IH (fun H => HI (or_intror H)) (S m) s3); [|rewrite B; [exact M2|intros ->; apply HI; left; reflexivity]|exact A].
      intros k Hk. destruct (C eq_refl k Hk) as (ty & d & S1 & S2). rewrite S2. exact (reaches_next _ _ _ _ _ (HB k) (M1 k Hk) S1). }
  destruct (G 0%nat s) as [G1 G2]; [|reflexivity|exact HS|].
  { intros k _. destruct (Z.eq_dec (p_type (fs_packets s k)) PktMetadata) as [HT|HT]; [|now apply Re_media].
    replace (fs_packets s k) with (set_data (p_data (fs_packets s k)) (fs_packets s k)) at 2 by (destruct (fs_packets s k); reflexivity). apply Re_meta; [exact HT|constructor]. }
  exists (fs_packets s1). split; [exact G1|]. rewrite SD. destruct (serve_each ks i ND s1) as (A & _). destruct (call_each (flv_subscriber i) ks s1) as [s2 r]. cbn [fst snd] in A. rewrite A, G2. reflexivity.
Qed.
Print Assumptions C211_subscribers.
(** The packets are determined (C209), so this says everything. *)
Theorem C211_unique : forall n p q q', is_bytes (p_data p) -> reaches n p q -> reaches n p q' -> q = q'.
Proof. intros n p q q' HB [H|d H A] [H'|d' H' A']; try congruence. now rewrite (C209_unique _ _ _ _ HB A A'). Qed.
Print Assumptions C211_unique.

(** The command three times in front: the subscribers' files become shorter by its 16 bytes, until it is gone. *)
Example C211_example :
  let meta := mkP PktMetadata 0 0 0 None (commands 3 (amf0_string (str "onMetaData") ++ [3; 0; 0; 9])) None in
  let s0 := mkFS (fun k => match k with O => meta | 1%nat => ex_seq [2] | 2%nat => ex_key [3] | _ => ex_inter [4] end) (fun _ => (new_mixer, buffer0)) in
  match new_cache_of 1 with
  | Ok c0 => let '(c, (s, rs)) := gop_run_ptr fs_packets c0 s0 [GWrite 0; GWrite 1; GWrite 2; GWrite 3] in
      (exists s1, all_served c [0; 1; 2; 3]%nat s s1 /\ map (fun i => len (w_out (snd (fs_mixers s1 i)))) [0; 1; 2; 3]%nat = [112; 96; 80; 80]) /\
      cache_send_to (fun k l => (l ++ [k], Ok tt)) c [] = ([0; 1; 2; 3]%nat, Ok tt)
  | _ => False
  end.
Proof.
  cbv zeta. vm_compute new_cache_of. cbv iota.
  split; [|vm_compute; reflexivity]. eexists. split; [repeat (eapply As_one; [vm_compute; reflexivity|]); apply As_none|vm_compute; reflexivity].
Qed.
