(** Property C147: FLV mixers served from one GOP cache. *)
From Coq Require Import String.
From Verif Require Import Base.Go Base.GoFacts Base.IO Model.AmfTypes Model.Amf3 Model.Amf0 Model.Metadata Model.Packet Model.Gop Model.GopPtr Model.Flv Model.Relay
  Spec.Gop Spec.GopPtr Proofs.Gop Proofs.GopPtr Props.Gop Props.Fan Props.GopPtr.
Import ListNotations.

(** ** C147 *)
(** Serving subscribers one after the other. *)
Fixpoint serve_flv (c : cache_of_type nat) (is : list nat) (s : flv_state) : flv_state :=
  match is with [] => s | i :: is' => serve_flv c is' (fst (cache_send_to (flv_subscriber i) c s)) end.
(** What a mixer does with packets of its own, up to the first failure. *)
Fixpoint mux_own (xw : mixer * writer) (ps : list packet) : mixer * writer * res unit :=
  match ps with
  | [] => (xw, Ok tt)
  | p :: ps' => let '(x', _, (w', r)) := mixer_mux (fst xw) p (p_ts p) (snd xw) in
                match r with Ok _ => mux_own (x', w') ps' | _ => (x', w', r) end
  end.
(** Media, or metadata with at most one @setDataFrame in front of a name. *)
Definition one_frame_name (p : packet) : Prop :=
  p_type p <> PktMetadata \/ starts_with_name (p_data p) \/ exists d, p_data p = amf0_string (str "@setDataFrame") ++ d /\ starts_with_name d.

Lemma one_frame_stable p ty d : one_frame_name p -> mux_select p = Ok (ty, d) -> mux_select (set_data d p) = Ok (ty, d).
Proof.
  intros H E. destruct (Z.eq_dec (p_type p) PktMetadata) as [Ht|Ht].
  - rewrite select_meta in E |- * by exact Ht. cbn [p_data set_data]. destruct H as [H|[H|(d' & Hd & H)]]; [contradiction| |].
    + rewrite del_name in E by exact H. inversion E; subst. rewrite del_name by exact H. reflexivity.
    + rewrite Hd, del_frame in E. inversion E; subst. rewrite del_name by exact H. reflexivity.
  - pose proof (select_media p Ht _ _ E) as ->. rewrite <- E. destruct p; reflexivity.
Qed.
(** The packets of the program are those of h0, some of them with the payload that Mux has left. *)
Definition muxed_some (h0 h : nat -> packet) : Prop := forall k, h k = h0 k \/ exists ty d, mux_select (h0 k) = Ok (ty, d) /\ h k = set_data d (h0 k).
Lemma mux_like p q x w : (q = p \/ exists ty d, mux_select p = Ok (ty, d) /\ q = set_data d p) -> one_frame_name p ->
  let a := mixer_mux x q (p_ts q) w in let b := mixer_mux x p (p_ts p) w in
  fst (fst a) = fst (fst b) /\ snd a = snd b /\ (snd (fst a) = p \/ exists ty d, mux_select p = Ok (ty, d) /\ snd (fst a) = set_data d p).
Proof.
  intros HQ HO. cbv zeta.
  assert (B : forall r, (r = p \/ exists ty d, mux_select p = Ok (ty, d) /\ r = set_data d p) ->
     p_ts r = p_ts p /\ forall w, let a := mux (mx_muxer x) r (p_ts p) w in let b := mux (mx_muxer x) p (p_ts p) w in fst (fst a) = fst (fst b) /\ snd a = snd b /\
       (snd (fst a) = p \/ exists ty d, mux_select p = Ok (ty, d) /\ snd (fst a) = set_data d p)).
  { intros r Hr. split; [destruct Hr as [->|(ty & d & _ & ->)]; reflexivity|]. intros w0. cbv zeta. unfold mux.
    destruct (mux_select p) as [[ty d]|e| |] eqn:E.
    - assert (E' : mux_select r = Ok (ty, d)).
      { destruct Hr as [->|(ty' & d' & H1 & ->)]; [exact E|]. inversion H1; subst. apply one_frame_stable; assumption. }
      rewrite E'. assert (SD : set_data d r = set_data d p) by (destruct Hr as [->|(ty' & d' & H1 & ->)]; reflexivity). rewrite SD.
      destruct (write _ w0) as [w1 [[]|e| |]]; cbn [fst snd]; try (split; [reflexivity|split; [reflexivity|right; exists ty, d; split; reflexivity]]).
      destruct (write d w1) as [w2 [[]|e| |]]; cbn [fst snd]; (split; [reflexivity|split; [reflexivity|right; exists ty, d; split; reflexivity]]).
    - destruct Hr as [->|(ty' & d' & H1 & _)]; [|discriminate]. rewrite E. cbn [fst snd]. auto.
    - destruct Hr as [->|(ty' & d' & H1 & _)]; [|discriminate]. rewrite E. cbn [fst snd]. auto.
    - destruct Hr as [->|(ty' & d' & H1 & _)]; [|discriminate]. rewrite E. cbn [fst snd]. auto. }
  destruct (B q HQ) as [B1 B2]. specialize (B2 w). cbv zeta in B2. unfold mixer_mux. rewrite B1. destruct (mux (mx_muxer x) q (p_ts p) w) as [[m1 q1] wr1]. destruct (mux (mx_muxer x) p (p_ts p) w) as [[m2 q2] wr2].
  cbn [fst snd] in *. destruct B2 as (-> & -> & B3). auto.
Qed.
Lemma serve_one ks i h0 : (forall k, In k ks -> one_frame_name (h0 k)) -> forall s, muxed_some h0 (fs_packets s) ->
  let a := call_each (flv_subscriber i) ks s in
  (fs_mixers (fst a) i, snd a) = mux_own (fs_mixers s i) (map h0 ks) /\ (forall j, j <> i -> fs_mixers (fst a) j = fs_mixers s j) /\ muxed_some h0 (fs_packets (fst a)).
Proof.
  induction ks as [|k ks IH]; intros HO s HM; cbv zeta; cbn [call_each map mux_own].
  - cbn [fst snd]. auto.
  - destruct (fs_mixers s i) as [x w] eqn:EX. cbn [fst snd].
    pose proof (mux_like (h0 k) (fs_packets s k) x w (HM k) (HO k (or_introl eq_refl))) as P. cbv zeta in P.
    destruct (mixer_mux x (fs_packets s k) (p_ts (fs_packets s k)) w) as [[x1 q1] [w1 r1]] eqn:EM. destruct (mixer_mux x (h0 k) (p_ts (h0 k)) w) as [[x2 q2] [w2 r2]]. cbn [fst snd] in P.
    destruct P as (-> & P2 & P3). inversion P2; subst. set (s1 := mkFS (upd (fs_packets s) k q1) (upd (fs_mixers s) i (x2, w2))).
    assert (EW : flv_subscriber i k s = (s1, r2)) by (unfold flv_subscriber; rewrite EX, EM; reflexivity). rewrite EW.
    assert (HM1 : muxed_some h0 (fs_packets s1)).
    { intros j. unfold s1, upd. cbn [fs_packets]. destruct (Nat.eqb_spec j k) as [->|]; [exact P3|apply HM]. }
    assert (HX1 : fs_mixers s1 i = (x2, w2)) by (unfold s1, upd; cbn [fs_mixers]; rewrite Nat.eqb_refl; reflexivity).
    assert (HJ1 : forall j, j <> i -> fs_mixers s1 j = fs_mixers s j) by (intros j Hj; unfold s1, upd; cbn [fs_mixers]; destruct (Nat.eqb_spec j i); [contradiction|reflexivity]).
    destruct r2 as [[]|e| |].
    + pose proof (IH (fun j Hj => HO j (or_intror Hj)) s1 HM1) as P. cbv zeta in P. rewrite HX1 in P. destruct P as (A & B & C). split; [exact A|]. split; [|exact C].
      intros j Hj. rewrite B, HJ1 by exact Hj. reflexivity.
    + cbn [fst snd]. rewrite HX1. auto.
    + cbn [fst snd]. rewrite HX1. auto.
    + cbn [fst snd]. rewrite HX1. auto.
Qed.
(** Proved: a subscriber receives what its mixer would make of private copies of the replayed packets, no matter which other
    subscribers were served before it and whether that succeeded - when metadata has at most one @setDataFrame in front of
    a name. Missing: other metadata, for which C147_flv_subscribers_refuted shows that it fails. *)
Theorem C147_flv_subscribers_partial : forall n c0 os s0 c s rs, new_cache_of n = Ok c0 -> gop_run_ptr fs_packets c0 s0 os = (c, (s, rs)) ->
  (forall k, one_frame_name (fs_packets s k)) ->
  exists ks, (forall S (wr : pointer_writer S) t, cache_send_to wr c t = call_each wr ks t) /\
  forall before i, ~ In i before ->
    let '(s', r) := cache_send_to (flv_subscriber i) c (serve_flv c before s) in
    (fs_mixers s' i, r) = mux_own (fs_mixers s i) (map (fs_packets s) ks).
Proof.
  intros n c0 os s0 c s rs Hc HR HO. destruct (sim_run fs_packets _ os c0 [] s0 (sim_new _ _ Hc)) as [E1 E2]. rewrite HR in E1, E2. cbn [fst snd] in E1, E2.
  destruct (spec_run fs_packets (Z.to_nat n) [] s0 os) as [h [s' rs']]. cbn [fst snd] in E1, E2. injection E1 as <- <-. exists (pointer_replay (Z.to_nat n) h).
  split; [intros S wr t; apply sim_send, E2|]. intros before i HI.
  assert (G : forall s1, muxed_some (fs_packets s) (fs_packets s1) -> fs_mixers s1 i = fs_mixers s i ->
    muxed_some (fs_packets s) (fs_packets (serve_flv c before s1)) /\ fs_mixers (serve_flv c before s1) i = fs_mixers s i).
  { induction before as [|b before IH]; intros s1 M1 M2; [auto|]. cbn [serve_flv]. rewrite (sim_send _ _ _ _ _ E2).
    destruct (serve_one (pointer_replay (Z.to_nat n) h) b (fs_packets s) (fun k _ => HO k) s1 M1) as (_ & A & B). apply IH; [intros H; apply HI; right; exact H|exact B|].
    rewrite A; [exact M2|]. intros ->. apply HI. left. reflexivity. }
  destruct (G s (fun k => or_introl eq_refl) eq_refl) as [G1 G2]. rewrite (sim_send _ _ _ _ _ E2).
  destruct (serve_one (pointer_replay (Z.to_nat n) h) i (fs_packets s) (fun k _ => HO k) _ G1) as (A & _ & _).
  destruct (call_each (flv_subscriber i) _ _) as [s2 r]. cbn [fst snd] in A. rewrite A, G2. reflexivity.
Qed.
Print Assumptions C147_flv_subscribers_partial.
(** Refuted for other metadata: with @setDataFrame twice in front, whoever is served second does not get it as it is. *)
Theorem C147_flv_subscribers_refuted : forall n c0 k s0 i j rest c s rs, new_cache_of n = Ok c0 -> i <> j ->
  p_type (fs_packets s0 k) = PktMetadata -> starts_with_name rest ->
  p_data (fs_packets s0 k) = amf0_string (str "@setDataFrame") ++ amf0_string (str "@setDataFrame") ++ rest ->
  never_fails (snd (fs_mixers s0 j)) -> gop_run_ptr fs_packets c0 s0 [GWrite k] = (c, (s, rs)) ->
  (forall S (wr : pointer_writer S) t, cache_send_to wr c t = call_each wr [k] t) /\
  let '(s', r) := cache_send_to (flv_subscriber j) c (serve_flv c [i] s) in
  (fs_mixers s' j, r) <> mux_own (fs_mixers s j) [fs_packets s k].
Proof.
  intros n c0 k s0 i j rest c s rs Hc Hij Ht Hr Hd Hw HR. destruct (sim_run fs_packets _ [GWrite k] c0 [] s0 (sim_new _ _ Hc)) as [E1 E2]. rewrite HR in E1, E2. cbn [fst snd] in E1, E2.
  assert (HK : kind_of (fs_packets s0 k) = Some KMeta) by (unfold kind_of; rewrite Ht; reflexivity).
  cbn [spec_run spec_step] in E1, E2. rewrite HK in E1, E2. cbn [record rejects fst snd app] in E1, E2. injection E1 as -> ->.
  assert (HP : pointer_replay (Z.to_nat n) [(KMeta, k)] = [k]).
  { unfold pointer_replay, group_replay, groups, last_of, latest. cbn. unfold lastn. cbn. reflexivity. }
  assert (HSD : forall S (wr : pointer_writer S) t, cache_send_to wr c t = call_each wr [k] t) by (intros S wr t; rewrite (sim_send _ _ _ wr t E2), HP; reflexivity).
  split; [exact HSD|]. cbn [serve_flv]. rewrite !HSD. cbn [call_each]. set (p := fs_packets s0 k) in *.
  destruct (fs_mixers s0 i) as [x1 w1] eqn:EI. destruct (fs_mixers s0 j) as [x2 w2] eqn:EJ. cbn [snd] in Hw.
  pose proof (C129_fan_out_refuted p rest x1 (p_ts p) w1 x2 (p_ts p) w2 Ht Hr Hd Hw) as HF.
  unfold in_turn, with_copies, run1, map in HF. unfold flv_subscriber. rewrite EI. fold p.
  pose proof (run1_select p p (x1, p_ts p, w1) TagScriptDataAMF0 (amf0_string (str "@setDataFrame") ++ rest)) as RS.
  assert (ES : mux_select p = Ok (TagScriptDataAMF0, amf0_string (str "@setDataFrame") ++ rest)) by (rewrite select_meta, Hd by exact Ht; rewrite del_frame; reflexivity).
  destruct (RS ES ES) as [_ RP]. unfold run1 in RP.
  destruct (mixer_mux x1 p (p_ts p) w1) as [[x1' p1] [w1' r1]] eqn:M1. cbn [fst snd] in RP, HF.
  set (s1 := mkFS (upd (fs_packets s0) k p1) (upd (fs_mixers s0) i (x1', w1'))).
  assert (G1 : forall b : bool, fs_mixers (fst (if b then (s1, r1) else (s1, Ok tt))) j = (x2, w2)).
  { intros b. assert (Q : fs_mixers s1 j = (x2, w2)) by (unfold s1, upd; cbn [fs_mixers]; destruct (Nat.eqb_spec j i); [congruence|exact EJ]). destruct b; exact Q. }
  assert (G2 : fs_packets s1 k = p1) by (unfold s1, upd; cbn [fs_packets]; rewrite Nat.eqb_refl; reflexivity).
  assert (G3 : fs_mixers s1 j = (x2, w2)) by exact (G1 true).
  assert (TS : p_ts p1 = p_ts p) by (rewrite RP; reflexivity).
  replace (fst (match r1 with Ok _ => (s1, Ok tt) | _ => (s1, r1) end)) with s1 by (destruct r1 as [[]|e| |]; reflexivity). rewrite G3, G2, TS.
  cbn [mux_own fst snd]. fold p.
  destruct (mixer_mux x2 p1 (p_ts p) w2) as [[x2' p2] [w2' r2]] eqn:M2. destruct (mixer_mux x2 p (p_ts p) w2) as [[x3 p3] [w3 r3]] eqn:M3. cbn [fst snd] in HF.
  set (s2 := mkFS _ _). assert (G4 : fs_mixers s2 j = (x2', w2')) by (unfold s2, upd; cbn [fs_mixers]; rewrite Nat.eqb_refl; reflexivity).
  replace (match r2 with Ok _ => (s2, Ok tt) | _ => (s2, r2) end) with (s2, r2) by (destruct r2 as [[]|e| |]; reflexivity). rewrite G4.
  replace (match r3 with Ok _ => (x3, w3, Ok tt) | _ => (x3, w3, r3) end) with (x3, w3, r3) by (destruct r3 as [[]|e| |]; reflexivity).
  intros H. inversion H; subst. apply HF. reflexivity.
Qed.
Print Assumptions C147_flv_subscribers_refuted.
(** Two subscribers, the second after the first, with metadata, a sequence header, a key and an inter frame. *)
Example C147_example :
  let meta := mkP PktMetadata 0 0 0 None (amf0_string (str "@setDataFrame") ++ amf0_string (str "onMetaData") ++ [3; 0; 0; 9]) None in
  let s0 := mkFS (fun k => match k with O => meta | 1%nat => ex_seq [2] | 2%nat => ex_key [3] | _ => ex_inter [4] end) (fun _ => (new_mixer, buffer0)) in
  (forall k, one_frame_name (fs_packets s0 k)) /\
  match new_cache_of 1 with
  | Ok c0 => let '(c, (s, rs)) := gop_run_ptr fs_packets c0 s0 [GWrite 0; GWrite 1; GWrite 2; GWrite 3] in
      rs = [Ok tt; Ok tt; Ok tt; Ok tt] /\
      let '(s', r) := cache_send_to (flv_subscriber 1) c (serve_flv c [0%nat] s) in
      r = Ok tt /\ w_out (snd (fs_mixers s' 1)) = w_out (snd (fs_mixers s' 0)) /\ len (w_out (snd (fs_mixers s' 1))) = 80
  | _ => False
  end.
Proof.
  cbv zeta. split; [|vm_compute; auto]. intros [|[|[|k]]]; cbn [fs_packets]; [|left; discriminate|left; discriminate|left; discriminate].
  right. right. exists (amf0_string (str "onMetaData") ++ [3; 0; 0; 9]). split; [reflexivity|].
  exists (str "onMetaData"), [3; 0; 0; 9]. split; [vm_compute; split; reflexivity|]. split; [discriminate|reflexivity].
Qed.
