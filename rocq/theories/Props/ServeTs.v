(** Property C148: TS mixers served from one GOP cache. *)
From Verif Require Import Base.Go Base.GoFacts Base.IO Model.AmfTypes Model.Packet Model.Parsers Model.Ts Model.TsAlias Model.Gop Model.GopPtr
  Spec.TsAlias Proofs.Parsers Proofs.TsPackets Proofs.TsMore Proofs.TsAlias Proofs.TsShare Proofs.Gop Proofs.GopPtr Props.TsAlias Spec.Gop Spec.GopPtr.

(** Mixer i as a subscriber: a packet.Writer that calls Mux. *)
Definition ts_subscriber (pol : Z -> Z -> Z) (i : nat) : pointer_writer world := fun k s => astep pol s (AMux i k).
(** The same with a copy of the packet struct in a variable t of the subscriber's own. *)
Definition copying_subscriber (pol : Z -> Z -> Z) (i t : nat) : pointer_writer world := fun k s =>
  astep pol (fst (astep pol s (ACopy t k))) (AMux i t).

Lemma run_three pol s a b c s3 : arun pol s [a; b; c] = (s3, [Ok tt; Ok tt; Ok tt]) ->
  exists s1 s2, astep pol s a = (s1, Ok tt) /\ astep pol s1 b = (s2, Ok tt) /\ astep pol s2 c = (s3, Ok tt).
Proof.
  cbn [arun]. destruct (astep pol s a) as [s1 r1]. destruct (astep pol s1 b) as [s2 r2] eqn:E2. destruct (astep pol s2 c) as [s3' r3] eqn:E3. intros H. inversion H; subst.
  exists s1, s2. auto.
Qed.
(** The key frame as the second mixer finds and sends it. *)
Lemma key_replaced pol os i j k1 k2 d1 d2 s3 : single_use (os ++ [AMux i k1; AMux i k2]) ->
  avc_frame (packet_in (after pol os) k1) -> avc_frame (packet_in (after pol os) k2) -> k1 <> k2 ->
  arun pol (after pol os) [AMux i k1; AMux i k2; AMux j k1] = (s3, [Ok tt; Ok tt; Ok tt]) ->
  media_in (after pol (os ++ [AMux i k1])) k1 = Some d1 -> media_in (after pol (os ++ [AMux i k1; AMux i k2])) k2 = Some d2 -> len d2 <= len d1 ->
  media_in s3 k1 = Some (d2 ++ drop d1 (len d2)).
Proof.
  intros HS (HT1 & v1 & HV1 & A1 & B1) (HT2 & v2 & HV2 & A2 & B2) HK HR H1 H2 HL. destruct (run_three _ _ _ _ _ _ HR) as (s1 & s2 & E1 & E2 & E3).
  assert (HR2 : snd (arun pol (after pol os) [AMux i k1; AMux i k2]) = [Ok tt; Ok tt]) by (cbn [arun]; rewrite E1, E2; reflexivity).
  pose proof (C119_media_overwritten_refuted pol os i k1 k2 d1 d2 HS HR2 H1 H2 HL HK) as HM.
  assert (ES2 : after pol (os ++ [AMux i k1; AMux i k2]) = s2) by (rewrite after_app; cbn [arun]; rewrite E1, E2; reflexivity). rewrite ES2 in HM, H2.
  destruct (arun_inv pol os [AMux i k1; AMux i k2] world0 pworld0 _ inv0 HS) as (p & st & HI & HO). fold (after pol os) in HI.
  destruct (first_mux pol _ p st i k1 s1 _ HI HO E1) as (x & c1 & w1 & b1 & x1 & _ & _ & EP1 & HH1 & _ & _ & _ & _ & p1 & st1 & HI1 & HO1).
  destruct (first_mux pol _ p1 st1 i k2 s2 _ HI1 HO1 E2) as (y & c2 & w2 & b2 & x2 & EY & EC2 & EP2 & HH2 & _ & _ & _ & _ & p2 & st2 & (J1 & _) & _).
  assert (PK1 : ap_pkt (wd_pkts s2 k1) = packet_in (after pol os) k1) by (rewrite EP2, upd_other, EP1, upd_same by exact HK; reflexivity).
  assert (PK2 : ap_pkt (wd_pkts s1 k2) = packet_in (after pol os) k2) by (rewrite EP1, upd_other by congruence; reflexivity).
  destruct (header_of_video _ _ HV1) as (h1 & Hh1 & Hh1'). destruct (header_of_video _ _ HV2) as (h2 & Hh2 & Hh2').
  assert (ST : is_start d2 = true).
  { unfold media_in in H2. rewrite EP2, upd_same in H2. cbn [ap_media option_map] in H2. injection H2 as H2. destruct HH2 as (_ & Q & _). cbn [fst snd] in Q. unfold rd, bbytes in H2. cbn [s_arr s_len] in H2. rewrite Q in H2. subst d2.
    refine (h264_codec_start _ (view (wd_mem s1) (wd_pkts s1 k2)) h2 v2 _ _ _ Hh2' A2 B2 _ EC2); [rewrite view_header, PK2; exact Hh2|rewrite view_type, PK2; exact HT2]. }
  destruct (mux_parts pol s2 j k1 s3 E3) as (z & c & m' & b' & EZ & EC & EM & EP & _). pose proof (owner_media s2 j z EZ) as OZ.
  unfold media_in in HM. destruct (ap_media (wd_pkts s2 k1)) as [a|] eqn:EA; [|discriminate]. cbn [option_map] in HM. injection HM as HM.
  destruct (h264_copy pol (x_codec (am_x z)) (wd_pkts s2 k1) h1 v1 a (wd_mem s2) (am_media z) _ ltac:(rewrite PK1; exact Hh1) Hh1' A1 B1 ltac:(rewrite PK1; exact HT1) EA HM (is_start_app _ _ ST) (J1 _ _ _ OZ))
    as (c' & m2 & b3 & E4 & (_ & R & _)).
  rewrite EC in E4. injection E4 as _ <- <-. unfold media_in. rewrite EP, upd_same, EM. cbn [ap_media option_map]. f_equal. exact R.
Qed.

(** Refuted: a key frame and an inter frame are cached and sent to mixer i and then to mixer j, all calls succeeding. If the
    inter frame's Annex B bytes d2 are not longer than the key frame's d1, the first thing mixer j sends is d2 followed by
    the rest of d1, as the key frame. *)
Theorem C148_ts_subscribers_refuted : forall pol n c0 os i j k1 k2 d1 d2 c r1 s1 s2, 0 < n -> new_cache_of n = Ok c0 -> k1 <> k2 ->
  let s := after pol os in
  is_key (packet_in s k1) = true -> is_inter (packet_in s k2) = true -> avc_frame (packet_in s k1) -> avc_frame (packet_in s k2) ->
  single_use (os ++ [AMux i k1; AMux i k2]) ->
  gop_run_ptr packet_in c0 s [GWrite k1; GWrite k2] = (c, r1) ->
  cache_send_to (ts_subscriber pol i) c s = (s1, Ok tt) -> cache_send_to (ts_subscriber pol j) c s1 = (s2, Ok tt) ->
  media_in (after pol (os ++ [AMux i k1])) k1 = Some d1 -> media_in (after pol (os ++ [AMux i k1; AMux i k2])) k2 = Some d2 -> len d2 <= len d1 ->
  (forall S (wr : pointer_writer S) t, cache_send_to wr c t = call_each wr [k1; k2] t) /\
  exists x, wd_mixes s1 j = Some x /\
    sent (fst (ts_subscriber pol j k1 s1)) j =
      Some (w_out (fst (snd (ts_mux (x_muxer (am_x x)) (set_demuxed (match p_header (packet_in s k1) with Some h => h | None => mkH None None end) (d2 ++ drop d1 (len d2)) (packet_in s k1))
                                    (x_dts (am_x x)) (x_pts (am_x x)) (am_w x))))).
Proof.
  intros pol n c0 os i j k1 k2 d1 d2 c r1 s1 s2 Hn Hc HK s HK1 HK2 HA1 HA2 HS HR HS1 HS2 H1 H2 HL.
  assert (KD1 : kind_of (packet_in s k1) = Some KKey).
  { unfold is_key in HK1. apply andb_prop in HK1 as [Q1 Q2]. unfold kind_of, kind_video. rewrite Q1. destruct (p_header _) as [[[v|] a]|]; try discriminate. destruct (v_seq v); [discriminate|]. cbn in Q2. rewrite Q2. reflexivity. }
  assert (KD2 : kind_of (packet_in s k2) = Some KInter).
  { unfold is_inter in HK2. apply andb_prop in HK2 as [Q1 Q2]. unfold kind_of, kind_video. rewrite Q1. destruct (p_header _) as [[[v|] a]|]; try discriminate. destruct (v_seq v), (v_key v), (v_inter v); try discriminate. reflexivity. }
  destruct (Z.to_nat n) as [|n'] eqn:EN; [lia|].
  destruct (sim_run packet_in _ [GWrite k1; GWrite k2] c0 [] s (sim_new _ _ Hc)) as [_ SM]. rewrite HR, EN in SM. cbn [fst snd spec_run spec_step] in SM. rewrite KD1 in SM. cbn [record rejects fst snd app] in SM. rewrite KD2 in SM.
  cbn [record rejects fst snd app groups fold_left group rev] in SM. change (1024 <? len [k1]) with false in SM. cbn [fst snd app] in SM.
  assert (HP : pointer_replay (S n') [(KKey, k1); (KInter, k2)] = [k1; k2]).
  { unfold pointer_replay, group_replay, groups, last_of, latest. cbn. unfold lastn. cbn [length]. replace (1 - S n')%nat with 0%nat by lia. reflexivity. }
  assert (HSD : forall S (wr : pointer_writer S) t, cache_send_to wr c t = call_each wr [k1; k2] t) by (intros S wr t; rewrite (sim_send _ _ _ wr t SM), HP; reflexivity).
  split; [exact HSD|]. rewrite HSD in HS1, HS2. cbn [call_each] in HS1, HS2. unfold ts_subscriber in *.
  destruct (astep pol s (AMux i k1)) as [t1 [[]|e| |]] eqn:E1; try discriminate. destruct (astep pol t1 (AMux i k2)) as [t2 [[]|e| |]] eqn:E2; try discriminate. injection HS1 as ->.
  destruct (astep pol s1 (AMux j k1)) as [t3 [[]|e| |]] eqn:E3; try discriminate. cbn [fst].
  assert (ER : arun pol (after pol os) [AMux i k1; AMux i k2; AMux j k1] = (t3, [Ok tt; Ok tt; Ok tt])) by (cbn [arun]; fold s; rewrite E1, E2, E3; reflexivity).
  pose proof (key_replaced pol os i j k1 k2 d1 d2 t3 HS HA1 HA2 HK ER H1 H2 HL) as HM.
  assert (EA : after pol (os ++ [AMux i k1; AMux i k2]) = s1) by (rewrite after_app; cbn [arun]; fold s; rewrite E1, E2; reflexivity).
  pose proof (C118_sends_its_media pol (os ++ [AMux i k1; AMux i k2]) j k1) as C. cbv zeta in C. rewrite EA, E3 in C. destruct (C eq_refl) as (x & d & X1 & X2 & X3).
  rewrite after_snoc, EA, E3 in X2, X3. cbn [fst] in X2, X3. rewrite HM in X2. injection X2 as <-. exists x. split; [exact X1|].
  assert (PK : packet_in s1 k1 = packet_in s k1).
  { destruct (mux_parts pol s i k1 t1 E1) as (? & ? & ? & ? & _ & _ & _ & P1 & _). destruct (mux_parts pol t1 i k2 s1 E2) as (? & ? & ? & ? & _ & _ & _ & P2 & _).
    unfold packet_in. rewrite P2, upd_other, P1, upd_same by exact HK. reflexivity. }
  rewrite PK in X3. exact X3.
Qed.
Print Assumptions C148_ts_subscribers_refuted.
Definition ex_key_avc (d : bytes) : packet := mkP 0 0 0 0 (Some (mkH (Some (mkVH true false false false true 7 0)) None)) [] (Some d).
Example C148_example : let os := [ANewMix 0 buffer0; ANewMix 1 buffer0; ASet 2 (ex_key_avc [0; 0; 0; 3; 101; 7; 8]); ASet 3 (ex_avc [0; 0; 0; 2; 65; 9])] in
  let s := after twice os in
  is_key (packet_in s 2) = true /\ is_inter (packet_in s 3) = true /\ avc_frame (packet_in s 2) /\ avc_frame (packet_in s 3) /\
  single_use (os ++ [AMux 0 2; AMux 0 3]) /\
  match new_cache_of 1 with
  | Ok c0 => let '(c, _) := gop_run_ptr packet_in c0 s [GWrite 2; GWrite 3] in
      let '(s1, r1) := cache_send_to (ts_subscriber twice 0) c s in let '(s2, r2) := cache_send_to (ts_subscriber twice 1) c s1 in
      r1 = Ok tt /\ r2 = Ok tt
  | _ => False
  end /\
  media_in (after twice (os ++ [AMux 0 2])) 2 = Some [0; 0; 0; 1; 9; 240; 0; 0; 0; 1; 101; 7; 8] /\
  media_in (after twice (os ++ [AMux 0 2; AMux 0 3])) 3 = Some [0; 0; 0; 1; 9; 240; 0; 0; 0; 1; 65; 9].
Proof.
  cbv zeta. split; [vm_compute; reflexivity|]. split; [vm_compute; reflexivity|].
  split; [split; [vm_compute; reflexivity|]; exists (mkVH true false false false true 7 0); split; [vm_compute; reflexivity|split; reflexivity]|].
  split; [split; [vm_compute; reflexivity|]; exists (mkVH false true false false true 7 0); split; [vm_compute; reflexivity|split; reflexivity]|].
  split; [cbv; tauto|]. split; [vm_compute; auto|]. split; vm_compute; reflexivity.
Qed.

(** ** Copying the packet struct first *)
(** Serving copying subscribers (mixer, variable) one after the other. *)
Fixpoint serve_ts (pol : Z -> Z -> Z) (c : cache_of_type nat) (is : list (nat * nat)) (s : world) : world :=
  match is with [] => s | (i, t) :: is' => serve_ts pol c is' (fst (cache_send_to (copying_subscriber pol i t) c s)) end.
(** What a mixer does with packets that own their bytes, up to the first failure. *)
Fixpoint mux_own_ts (xw : tsmix * writer) (ps : list packet) : tsmix * writer * res unit :=
  match ps with
  | [] => (xw, Ok tt)
  | p :: ps' => let '(x', _, (w', r)) := mix_mux (fst xw) p (snd xw) in
                match r with Ok _ => mux_own_ts (x', w') ps' | _ => (x', w', r) end
  end.

(** The packets that calls have handed over. *)
Fixpoint handed (st : nat -> bool) (os : list aop) : nat -> bool :=
  match os with
  | [] => st
  | ASet k _ :: os' => handed (upd_nat st k false) os'
  | ACopy k j :: os' => handed (upd_nat st k (st j)) os'
  | (AMux _ k | ASaveAVC _ k | ASaveAAC _ k) :: os' => handed (upd_nat st k true) os'
  | _ :: os' => handed st os'
  end.
Lemma each_once_app os rest : forall st, each_once st (os ++ rest) <-> each_once st os /\ each_once (handed st os) rest.
Proof.
  induction os as [|o os IH]; intros st; [cbn; tauto|]. destruct o; cbn [app each_once handed]; rewrite IH; tauto.
Qed.
Lemma each_once_muxes i ks : forall st, NoDup ks -> (each_once st (map (AMux i) ks) <-> Forall (fun k => st k = false) ks).
Proof.
  induction ks as [|k ks IH]; intros st ND; [cbn; split; auto|]. cbn [map each_once]. inversion ND as [|? ? N1 N2]; subst. rewrite Forall_cons_iff, IH by exact N2.
  assert (Q : Forall (fun j => upd_nat st k true j = false) ks <-> Forall (fun j => st j = false) ks).
  { rewrite !Forall_forall. split; intros H j Hj; specialize (H j Hj); (assert (j <> k) by congruence); [rewrite upd_other in H by assumption|rewrite upd_other by assumption]; exact H. }
  rewrite Q. reflexivity.
Qed.

(** One Write of a copying subscriber. *)
Lemma copying_one pol i t k ks s p st : NoDup ks -> Forall (fun k => st k = false) ks -> In k ks -> ~ In t ks -> inv s p st ->
  exists s' p' st' r, copying_subscriber pol i t k s = (s', r) /\ inv s' p' st' /\ Forall (fun k => st' k = false) ks /\
    (forall j, In j ks -> pw_pkts p' j = pw_pkts p j) /\ (forall j, j <> i -> pw_mixes p' j = pw_mixes p j) /\
    match pw_mixes p i with
    | Some (x, w) => let '(x', _, (w', r')) := mix_mux x (pw_pkts p k) w in pw_mixes p' i = Some (x', w') /\ r = r'
    | None => True
    end.
Proof.
  intros ND HF HK HT HI.
  assert (HO : each_once st (ACopy t k :: AMux i t :: map (AMux i) ks)).
  { cbn [each_once]. rewrite upd_same. split; [rewrite Forall_forall in HF; apply HF, HK|]. apply each_once_muxes; [exact ND|]. rewrite Forall_forall in *. intros j Hj.
    assert (j <> t) by congruence. rewrite !upd_other by assumption. apply HF, Hj. }
  destruct (astep_sim pol s p st _ _ HI HO) as (s1 & p1 & st1 & r1 & A1 & B1 & HI1 & HO1).
  destruct (astep_sim pol s1 p1 st1 _ _ HI1 HO1) as (s2 & p2 & st2 & r2 & A2 & B2 & HI2 & HO2).
  exists s2, p2, st2, r2. split; [unfold copying_subscriber; rewrite A1; exact A2|]. split; [exact HI2|]. split; [apply (each_once_muxes i); assumption|].
  cbn [pstep] in B1. injection B1 as <- _. cbn [pstep pw_pkts pw_mixes] in B2. rewrite upd_same in B2.
  destruct (pw_mixes p i) as [[x w]|] eqn:EX.
  - destruct (mix_mux x (pw_pkts p k) w) as [[x' q] [w' r']]. injection B2 as <- <-. cbn [pw_pkts pw_mixes].
    split; [intros j Hj; assert (j <> t) by congruence; rewrite !upd_other by assumption; reflexivity|].
    split; [intros j Hj; rewrite upd_other by exact Hj; reflexivity|]. rewrite upd_same. auto.
  - injection B2 as <- <-. cbn [pw_pkts pw_mixes]. split; [intros j Hj; assert (j <> t) by congruence; rewrite !upd_other by assumption; reflexivity|]. auto.
Qed.
Lemma copying_all pol i t ks : NoDup ks -> ~ In t ks -> forall l s p st, incl l ks -> Forall (fun k => st k = false) ks -> inv s p st ->
  exists s' p' st' r, call_each (copying_subscriber pol i t) l s = (s', r) /\ inv s' p' st' /\ Forall (fun k => st' k = false) ks /\
    (forall j, In j ks -> pw_pkts p' j = pw_pkts p j) /\ (forall j, j <> i -> pw_mixes p' j = pw_mixes p j) /\
    forall xw, pw_mixes p i = Some xw -> let '(xw', r') := mux_own_ts xw (map (pw_pkts p) l) in pw_mixes p' i = Some xw' /\ r = r'.
Proof.
  intros ND HT. induction l as [|k l IH]; intros s p st HL HF HI; cbn [call_each map mux_own_ts].
  - exists s, p, st, (Ok tt). split; [reflexivity|]. split; [exact HI|]. split; [exact HF|]. repeat split; auto.
  - destruct (copying_one pol i t k ks s p st ND HF (HL k (or_introl eq_refl)) HT HI) as (s1 & p1 & st1 & r1 & E1 & I1 & F1 & P1 & M1 & X1). rewrite E1.
    destruct (IH s1 p1 st1 (fun j Hj => HL j (or_intror Hj)) F1 I1) as (s2 & p2 & st2 & r2 & E2 & I2 & F2 & P2 & M2 & X2).
    assert (EQ : map (pw_pkts p1) l = map (pw_pkts p) l) by (apply map_ext_in; intros j Hj; apply P1, HL; right; exact Hj).
    destruct r1 as [[]|e| |].
    + exists s2, p2, st2, r2. split; [exact E2|]. split; [exact I2|]. split; [exact F2|]. split; [intros j Hj; rewrite P2, P1 by exact Hj; reflexivity|].
      split; [intros j Hj; rewrite M2, M1 by exact Hj; reflexivity|]. intros [x w] EX. rewrite EX in X1. cbn [fst snd].
      destruct (mix_mux x (pw_pkts p k) w) as [[x' q] [w' r']]. destruct X1 as [X1 <-]. rewrite <- EQ. exact (X2 _ X1).
    + exists s1, p1, st1, (Err e). repeat (split; [first [reflexivity|assumption]|]). intros [x w] EX. rewrite EX in X1. cbn [fst snd]. destruct (mix_mux x (pw_pkts p k) w) as [[x' q] [w' r']]. destruct X1 as [X1 <-]. auto.
    + exists s1, p1, st1, Panic. repeat (split; [first [reflexivity|assumption]|]). intros [x w] EX. rewrite EX in X1. cbn [fst snd]. destruct (mix_mux x (pw_pkts p k) w) as [[x' q] [w' r']]. destruct X1 as [X1 <-]. auto.
    + exists s1, p1, st1, OutOfFuel. repeat (split; [first [reflexivity|assumption]|]). intros [x w] EX. rewrite EX in X1. cbn [fst snd]. destruct (mix_mux x (pw_pkts p k) w) as [[x' q] [w' r']]. destruct X1 as [X1 <-]. auto.
Qed.

(** Proved for subscribers that copy the packet struct into a variable of their own and hand that to Mux: each receives what
    its mixer would make of packets that own their bytes (C118: [prun]), whoever was served before it and whether that
    succeeded. The replayed packets themselves must not have been handed to a mixer. Missing: subscribers that hand over
    the cached packets themselves, for which C148_ts_subscribers_refuted shows that it fails. *)
Theorem C148_copying_subscribers_partial : forall pol n c0 gos s0 c os rs, new_cache_of n = Ok c0 ->
  gop_run_ptr packet_in c0 s0 gos = (c, (after pol os, rs)) -> single_use os ->
  exists ks, (forall S (wr : pointer_writer S) t, cache_send_to wr c t = call_each wr ks t) /\
  forall before i t, ~ In i (map fst before) -> Forall (fun v => ~ In v ks) (t :: map snd before) ->
    Forall (fun k => single_use (os ++ [AMux i k])) ks ->
    forall xw, pw_mixes (fst (prun pworld0 os)) i = Some xw ->
    let '(s', r) := cache_send_to (copying_subscriber pol i t) c (serve_ts pol c before (after pol os)) in
    let '((_, w'), r') := mux_own_ts xw (map (pw_pkts (fst (prun pworld0 os))) ks) in
    sent s' i = Some (w_out w') /\ r = r'.
Proof.
  intros pol n c0 gos s0 c os rs Hc HR HSU. destruct (sim_run packet_in _ gos c0 [] s0 (sim_new _ _ Hc)) as [E1 E2]. rewrite HR in E1, E2. cbn [fst snd] in E1, E2.
  destruct (spec_run packet_in (Z.to_nat n) [] s0 gos) as [h [s' rs']]. cbn [fst snd] in E1, E2. clear E1. set (ks := pointer_replay (Z.to_nat n) h) in *. exists ks.
  assert (SD : forall S (wr : pointer_writer S) t, cache_send_to wr c t = call_each wr ks t) by (intros S wr t; apply sim_send, E2). split; [exact SD|].
  intros before i t HB HT HH xw HX. set (p0 := fst (prun pworld0 os)) in *. set (kd := nodup Nat.eq_dec ks).
  assert (ND : NoDup kd) by apply NoDup_nodup. assert (IN : forall k, In k kd <-> In k ks) by (intros k; apply nodup_In).
  assert (HS2 : each_once (fun _ => false) (os ++ map (AMux i) kd)).
  { apply each_once_app. split; [exact HSU|]. apply each_once_muxes; [exact ND|]. rewrite Forall_forall in *. intros k Hk. apply IN in Hk. specialize (HH k Hk). apply each_once_app in HH. apply HH. }
  assert (G0 : exists st, inv (after pol os) p0 st /\ Forall (fun k => st k = false) kd).
  { assert (Q : forall os s p st, inv s p st -> each_once st (os ++ map (AMux i) kd) -> exists st', inv (fst (arun pol s os)) (fst (prun p os)) st' /\ each_once st' (map (AMux i) kd)).
    { clear -ND. induction os as [|o os IH]; intros s p st HI HO; [exists st; split; assumption|].
      destruct (astep_sim pol s p st o (os ++ map (AMux i) kd) HI HO) as (s' & p' & st' & r & A1 & A2 & HI' & HO'). cbn [arun prun]. rewrite A1, A2.
      destruct (IH s' p' st' HI' HO') as (st2 & H). destruct (arun pol s' os) as [s2 rs], (prun p' os) as [p2 rp]. exists st2. exact H. }
    destruct (Q os world0 pworld0 _ inv0 HS2) as (st & I & O). exists st. split; [exact I|]. apply (each_once_muxes i); assumption. }
  assert (G : forall s p st, inv s p st -> Forall (fun k => st k = false) kd -> (forall k, In k ks -> pw_pkts p k = pw_pkts p0 k) -> pw_mixes p i = Some xw ->
    exists p' st', inv (serve_ts pol c before s) p' st' /\ Forall (fun k => st' k = false) kd /\ (forall k, In k ks -> pw_pkts p' k = pw_pkts p0 k) /\ pw_mixes p' i = Some xw).
  { clear G0. induction before as [|[b u] before IH]; intros s p st HI HF HP HM; [exists p, st; auto|]. cbn [serve_ts]. rewrite SD. cbn [map fst snd] in HB, HT.
    assert (HU : ~ In u ks) by (rewrite Forall_forall in HT; apply HT; right; left; reflexivity).
    destruct (copying_all pol b u kd ND (fun H => HU (proj1 (IN u) H)) ks s p st (fun k Hk => proj2 (IN k) Hk) HF HI) as (s1 & p1 & st1 & r1 & A1 & A2 & A3 & A4 & A5 & _). rewrite A1. cbn [fst].
    apply (IH (fun H => HB (or_intror H))) with (p := p1) (st := st1); [rewrite !Forall_cons_iff in *; tauto|exact A2|exact A3| |].
    - intros k Hk. rewrite A4 by (apply IN, Hk). apply HP, Hk.
    - rewrite A5; [exact HM|]. intros ->. apply HB. left. reflexivity. }
  destruct G0 as (st & G1 & G2). destruct (G _ _ _ G1 G2 (fun _ _ => eq_refl) HX) as (p1 & st1 & I1 & F1 & P1 & X1).
  assert (HT' : ~ In t kd) by (rewrite IN; rewrite Forall_cons_iff in HT; apply HT).
  destruct (copying_all pol i t kd ND HT' ks _ p1 st1 (fun k Hk => proj2 (IN k) Hk) F1 I1) as (s2 & p2 & st2 & r2 & A1 & A2 & _ & _ & _ & A6). rewrite SD, A1.
  specialize (A6 _ X1). replace (map (pw_pkts p1) ks) with (map (pw_pkts p0) ks) in A6 by (apply map_ext_in; intros k Hk; symmetry; apply P1, Hk).
  destruct (mux_own_ts xw _) as [[x' w'] r']. destruct A6 as [A6 ->]. split; [|reflexivity].
  destruct A2 as (_ & _ & _ & _ & I5). specialize (I5 i). rewrite A6 in I5. unfold sent. destruct (wd_mixes s2 i) as [y|]; [|contradiction]. destruct I5 as [<- _]. reflexivity.
Qed.
Print Assumptions C148_copying_subscribers_partial.
(** Two mixers, a key and an inter frame. *)
Example C148_copying_example : let os := [ANewMix 0 buffer0; ANewMix 1 buffer0; ASet 2 (ex_key_avc [0; 0; 0; 3; 101; 7; 8]); ASet 3 (ex_avc [0; 0; 0; 2; 65; 9])] in
  single_use os /\ Forall (fun k => single_use (os ++ [AMux 1 k])) [2%nat; 3%nat] /\ Forall (fun v => ~ In v [2%nat; 3%nat]) [5%nat; 4%nat] /\
  match new_cache_of 1 with
  | Ok c0 => let '(c, (s, _)) := gop_run_ptr packet_in c0 (after twice os) [GWrite 2; GWrite 3] in
      let s1 := serve_ts twice c [(0%nat, 4%nat)] s in let '(s2, r2) := cache_send_to (copying_subscriber twice 1 5) c s1 in
      r2 = Ok tt /\ sent s2 1 = sent s2 0 /\ option_map (@len Z) (sent s2 1) = Some (2 * 188)
  | _ => False
  end.
Proof.
  cbv zeta. split; [cbv; tauto|]. split; [repeat constructor; cbv; tauto|]. split; [repeat constructor; cbn; intuition congruence|]. vm_compute. auto.
Qed.
