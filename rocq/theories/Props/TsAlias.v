(** C118-C120: packets and mixers sharing media bytes. The model keeps memory (Model/TsAlias.v): after Mux, a packet's
    Media is a slice of the mixer's cache. [pol] is the growth policy of bytes.Buffer, any. *)
From Verif Require Import Base.Go Base.GoFacts Base.IO Model.AmfTypes Model.Packet Model.Parsers Model.Ts Model.TsAlias Spec.TsAlias
  Proofs.Parsers Proofs.TsPackets Proofs.TsMore Proofs.TsAlias Proofs.TsShare.

(** ** Vocabulary *)
(** The program state some calls have brought about, and what they returned. *)
Definition after (pol : Z -> Z -> Z) (os : list aop) : world := fst (arun pol world0 os).
Definition returns (pol : Z -> Z -> Z) (os : list aop) : list (res unit) := snd (arun pol world0 os).
(** What a packet's Media shows, and what a mixer's writer has received. *)
Definition media_in (s : world) (k : nat) : option bytes := option_map (rd (wd_mem s)) (ap_media (wd_pkts s k)).
Definition sent (s : world) (i : nat) : option bytes := option_map (fun x => w_out (am_w x)) (wd_mixes s i).
(** Every packet is handed to Mux, SaveAVCHeader or SaveAACHeader at most once between two assignments to it. *)
Definition single_use (os : list aop) : Prop := each_once (fun _ => false) os.
(** An AAC frame, an H.264 frame, a sequence header. *)
Definition aac_frame (p : packet) : Prop := p_type p = 1 /\ exists ah, audio_of p = Some ah /\ a_aac ah = true /\ a_aactype ah = 1.
Definition avc_frame (p : packet) : Prop := p_type p = 0 /\ exists vh, video_of p = Some vh /\ v_avc vh = true /\ v_seq vh = false.
Definition avc_header (p : packet) : Prop := p_type p = 0 /\ exists vh, video_of p = Some vh /\ v_avc vh = true /\ v_seq vh = true.
Definition aac_header (p : packet) : Prop := p_type p = 1 /\ exists ah, audio_of p = Some ah /\ a_aac ah = true /\ a_aactype ah = 0.
Definition packet_in (s : world) (k : nat) : packet := ap_pkt (wd_pkts s k).
(** The seven bytes of an ADTS header begin with the sync word. *)
Definition adts (h : bytes) : Prop := len h = 7 /\ take h 2 = [255; 241].

Lemma after_app pol os os' : after pol (os ++ os') = fst (arun pol (after pol os) os').
Proof. unfold after. rewrite arun_app. destruct (arun pol world0 os) as [s1 r1]. cbn [fst]. destruct (arun pol s1 os'). reflexivity. Qed.
Lemma after_snoc pol os o : after pol (os ++ [o]) = fst (astep pol (after pol os) o).
Proof. rewrite after_app. cbn [arun]. destruct (astep _ _ o). reflexivity. Qed.
Lemma header_of_audio p ah : audio_of p = Some ah -> exists h, p_header p = Some h /\ h_audio h = Some ah.
Proof. unfold audio_of. destruct (p_header p) as [h|]; [|discriminate]. intros H. exists h. auto. Qed.
Lemma header_of_video p vh : video_of p = Some vh -> exists h, p_header p = Some h /\ h_video h = Some vh.
Proof. unfold video_of. destruct (p_header p) as [h|]; [|discriminate]. intros H. exists h. auto. Qed.

(** ** Samples *)
Definition twice (_ need : Z) : Z := 2 * need.
Definition ex_seqhdr : packet := mkP 1 0 0 0 (Some (mkH None (Some (mkAH 10 0 true false true)))) [] (Some [18; 16]).
Definition ex_aac (d : bytes) : packet := mkP 1 0 0 0 (Some (mkH None (Some (mkAH 10 1 true false false)))) [] (Some d).
Definition ex_avc (d : bytes) : packet := mkP 0 0 0 0 (Some (mkH (Some (mkVH false true false false true 7 0)) None)) [] (Some d).
Definition ex_avchdr : packet := mkP 0 0 0 0 (Some (mkH (Some (mkVH true false true false true 7 0)) None)) []
  (Some [1; 77; 0; 30; 255; 225; 0; 4; 103; 77; 0; 30; 1; 0; 2; 104; 10]).
Definition is_ok {A} (r : res A) : bool := match r with Ok _ => true | _ => false end.
(** Two mixers with their audio headers saved, and an audio frame. *)
Definition ex_two : list aop :=
  [ANewMix 0 buffer0; ANewMix 1 buffer0; ASet 0 ex_seqhdr; ACopy 1 0; ASaveAAC 0 0; ASaveAAC 1 1; ASet 2 (ex_aac [1; 2; 3; 4])].

(** ** C118: packets used once do not see each other *)

(** With packets used once, every call returns, and every writer receives, what they would if each packet owned its
    bytes and each mixer stood alone. Copying the packet struct before handing it over is enough to use it with
    several mixers. *)
Theorem C118_single_use : forall pol os, single_use os ->
  returns pol os = snd (prun pworld0 os) /\
  forall i, sent (after pol os) i = option_map (fun xw => w_out (snd xw)) (pw_mixes (fst (prun pworld0 os)) i).
Proof.
  intros pol os H. destruct (arun_sim pol os world0 pworld0 _ inv0 H) as [H1 H2]. split; [exact H1|]. intros i. specialize (H2 i). unfold sent, after.
  destruct (wd_mixes _ i) as [x|], (pw_mixes _ i) as [[y w]|]; cbn [option_map] in *; try discriminate; [|reflexivity]. injection H2 as ->. reflexivity.
Qed.
Print Assumptions C118_single_use.
Example C118_ex : let os := ex_two ++ [ACopy 3 2; AMux 0 2; AMux 1 3] in
  single_use os /\ forallb is_ok (returns twice os) = true /\ option_map (@len Z) (sent (after twice os) 0) = Some 188 /\ sent (after twice os) 1 = sent (after twice os) 0.
Proof. cbv zeta. split; [|vm_compute; auto]. cbv. tauto. Qed.

(** In every state: a successful Mux sends the transport packets of the packet as its Media then shows it. *)
Theorem C118_sends_its_media : forall pol os i k, let s := after pol os in let s' := after pol (os ++ [AMux i k]) in
  snd (astep pol s (AMux i k)) = Ok tt ->
  exists x d, wd_mixes s i = Some x /\ media_in s' k = Some d /\
    sent s' i = Some (w_out (fst (snd (ts_mux (x_muxer (am_x x)) (set_demuxed (match p_header (packet_in s k) with Some h => h | None => mkH None None end) d (packet_in s k))
                                        (x_dts (am_x x)) (x_pts (am_x x)) (am_w x))))).
Proof.
  intros pol os i k s s'. subst s s'. rewrite after_snoc. destruct (astep pol (after pol os) (AMux i k)) as [s' r] eqn:E. cbn [fst snd]. intros ->.
  destruct (mux_parts pol _ i k s' E) as (x & c & m' & b' & EX & EC & EM & EP & x' & EX' & EB & EC' & HM).
  exists x, (rd m' (bbytes b')). split; [exact EX|]. unfold media_in, sent. rewrite EP, EX', !upd_same, EM. cbn [ap_media option_map]. split; [reflexivity|].
  rewrite EP, upd_same in HM. replace (view m' _) with (set_demuxed (match p_header (packet_in (after pol os) k) with Some h => h | None => mkH None None end) (rd m' (bbytes b')) (packet_in (after pol os) k)) in HM.
  - destruct (ts_mux _ _ _ _ _) as [k' [w' r]]. cbn [fst snd]. destruct HM as (-> & _). reflexivity.
  - unfold set_demuxed, view, packet_in. cbn [ap_pkt ap_media option_map]. f_equal. unfold codec_parse_a in EC. destruct (p_header (ap_pkt (wd_pkts (after pol os) k))); [reflexivity|discriminate].
Qed.
Print Assumptions C118_sends_its_media.
Example C118_sends_ex : snd (astep twice (after twice ex_two) (AMux 0 2)) = Ok tt.
Proof. vm_compute. reflexivity. Qed.

(** ** C119: what a packet's Media shows after Mux *)

(** Proved: until the mixer muxes again, or the packet is used again. *)
Theorem C119_media_kept_partial : forall pol os i k rest, single_use (os ++ AMux i k :: rest) ->
  snd (astep pol (after pol os) (AMux i k)) = Ok tt -> Forall (leaves i k) rest ->
  media_in (after pol (os ++ AMux i k :: rest)) k = media_in (after pol (os ++ [AMux i k])) k /\
  exists d, media_in (after pol (os ++ [AMux i k])) k = Some d.
Proof.
  intros pol os i k rest HS HR HF. destruct (arun_inv pol os (AMux i k :: rest) world0 pworld0 _ inv0 HS) as (p & st & HI & HO).
  change (os ++ AMux i k :: rest) with (os ++ [AMux i k] ++ rest). rewrite app_assoc, (after_app pol (os ++ [AMux i k]) rest), after_snoc.
  fold (after pol os) in HI. destruct (astep pol (after pol os) (AMux i k)) as [s' r] eqn:E. cbn [fst snd] in *. subst r.
  destruct (kept_after_mux pol _ p st i k s' rest HI HO E) as (d & HM & HK).
  destruct (astep_sim pol _ p st _ rest HI HO) as (s2 & p' & st' & r & E2 & _ & HI' & HO'). rewrite E in E2. injection E2 as <- <-.
  pose proof (kept_run pol i k d rest s' p' st' HI' HO' HK HF) as (a & A1 & _ & A3 & _). unfold media_in. rewrite HM, A1. cbn [option_map]. rewrite A3. split; [reflexivity|exists d; reflexivity].
Qed.
Print Assumptions C119_media_kept_partial.
Example C119_kept_ex : let rest := [ASet 3 (ex_aac [9; 9]); AMux 1 3; AHeader 0; ASetWriter 0 buffer0] in
  single_use (ex_two ++ AMux 0 2 :: rest) /\ snd (astep twice (after twice ex_two) (AMux 0 2)) = Ok tt /\ Forall (leaves 0 2) rest.
Proof. cbv zeta. split; [cbv; tauto|]. split; [vm_compute; reflexivity|]. repeat constructor; cbn; congruence. Qed.

(** Refuted beyond that: the mixer's next Mux writes its own media over it. *)
Theorem C119_media_overwritten_refuted : forall pol os i k1 k2 d1 d2, single_use (os ++ [AMux i k1; AMux i k2]) ->
  snd (arun pol (after pol os) [AMux i k1; AMux i k2]) = [Ok tt; Ok tt] ->
  media_in (after pol (os ++ [AMux i k1])) k1 = Some d1 -> media_in (after pol (os ++ [AMux i k1; AMux i k2])) k2 = Some d2 -> len d2 <= len d1 -> k1 <> k2 ->
  media_in (after pol (os ++ [AMux i k1; AMux i k2])) k1 = Some (d2 ++ drop d1 (len d2)).
Proof.
  intros pol os i k1 k2 d1 d2 HS HR H1 H2 HL HK. destruct (arun_inv pol os [AMux i k1; AMux i k2] world0 pworld0 _ inv0 HS) as (p & st & HI & HO).
  fold (after pol os) in HI. rewrite after_snoc in H1. rewrite after_app in H2 |- *. cbn [arun] in *.
  destruct (astep pol (after pol os) (AMux i k1)) as [s1 r1] eqn:E1. destruct (astep pol s1 (AMux i k2)) as [s2 r2] eqn:E2. cbn [fst snd] in *. injection HR as -> ->.
  destruct (first_mux pol _ p st i k1 s1 _ HI HO E1) as (x & c1 & w1 & b1 & x1 & _ & _ & EP1 & HH1 & EX1 & EB1 & _ & _ & p1 & st1 & HI1 & HO1).
  destruct (first_mux pol _ p1 st1 i k2 s2 _ HI1 HO1 E2) as (y & c2 & w2 & b2 & x2 & EY & _ & EP2 & HH2 & _ & _ & _ & BS & _).
  assert (EY' : y = x1) by (rewrite EX1, upd_same in EY; congruence). subst y. rewrite EB1 in BS.
  destruct (mux_parts pol s1 i k2 s2 E2) as (y & c & m' & b' & EY2 & EC & EM & EP' & _). rewrite EY in EY2. injection EY2 as <-. rewrite EB1 in EC.
  assert (b' = b2). { pose proof (f_equal (fun f => ap_media (f k2)) EP2) as Q. cbn beta in Q. rewrite EP', !upd_same in Q. cbn [ap_media] in Q. injection Q as Q1 Q2. destruct b', b2. cbn in *. congruence. } subst b'. subst m'.
  pose proof (codec_inpl pol (x_codec (am_x x1)) (wd_pkts s1 k2) (wd_mem s1, breset b1)) as (_ & HP). rewrite EC in HP. cbn [fst snd breset b_arr b_len] in HP.
  unfold media_in in *. rewrite EP1, upd_same in H1. rewrite EP2, upd_same in H2. rewrite EP2, upd_other, EP1, upd_same by exact HK. cbn [ap_media option_map] in *.
  destruct HH1 as (A1 & A2 & A3), HH2 as (C1 & C2 & C3). cbn [fst snd] in *. injection H1 as H1. injection H2 as H2. unfold rd, bbytes in *. cbn [s_arr s_len] in *.
  rewrite A2 in H1. rewrite C2 in H2. subst d1 d2.
  assert (CAP : b_len b1 <= len (arr (wd_mem s1) (b_arr b1))) by (rewrite A3; rewrite <- A2; unfold take, len; rewrite firstn_length; lia).
  destruct (HP A1 ltac:(lia) ltac:(lia)) as (Q1 & _ & Q3 & Q4). f_equal. rewrite Q1 in C2.
  pose proof (take_drop (arr (wd_mem s2) (b_arr b1)) (b_len b2)) as TD. rewrite <- TD. rewrite C2, Q4. rewrite <- C3, <- A2.
  pose proof (len_nonneg (w_out w2)) as N2.
  rewrite <- C3 in HL. rewrite take_app2 by (rewrite <- C3; lia). f_equal. rewrite <- C3. unfold take, drop. rewrite skipn_firstn_comm. f_equal. lia.
Qed.
Print Assumptions C119_media_overwritten_refuted.
Example C119_ex : let os := ex_two ++ [ASet 3 (ex_aac [9; 9])] in
  single_use (os ++ [AMux 0 2; AMux 0 3]) /\ snd (arun twice (after twice os) [AMux 0 2; AMux 0 3]) = [Ok tt; Ok tt] /\
  media_in (after twice (os ++ [AMux 0 2])) 2 = Some [255; 241; 80; 128; 1; 127; 252; 1; 2; 3; 4] /\
  media_in (after twice (os ++ [AMux 0 2; AMux 0 3])) 2 = Some [255; 241; 80; 128; 1; 63; 252; 9; 9; 3; 4].
Proof. cbv zeta. split; [cbv; tauto|]. vm_compute. auto. Qed.

(** ** C120: handing a packet over again, as a GOP cache read by several writers does *)

(** Refuted for AAC frames: the second Mux, by any mixer, puts a second ADTS header in front of the first. *)
Theorem C120_audio_again_refuted : forall pol os i j k d, single_use (os ++ [AMux i k]) ->
  aac_frame (packet_in (after pol os) k) -> media_in (after pol os) k = Some d ->
  snd (arun pol (after pol os) [AMux i k; AMux j k]) = [Ok tt; Ok tt] ->
  (exists h, adts h /\ media_in (after pol (os ++ [AMux i k])) k = Some (h ++ d)) /\
  exists h1 h2, adts h1 /\ adts h2 /\ media_in (after pol (os ++ [AMux i k; AMux j k])) k = Some (h1 ++ h2 ++ d).
Proof.
  intros pol os i j k d HS (HT & ah & HA & A1 & A2) HM HR. destruct (header_of_audio _ _ HA) as (h & Hh & Hh2). destruct (arun_inv pol os [AMux i k] world0 pworld0 _ inv0 HS) as (p & st & HI & HO).
  fold (after pol os) in HI. rewrite after_snoc, after_app. cbn [arun] in *.
  destruct (astep pol (after pol os) (AMux i k)) as [s1 r1] eqn:E1. destruct (astep pol s1 (AMux j k)) as [s2 r2] eqn:E2. cbn [fst snd] in *. injection HR as -> ->.
  destruct (second_mux pol _ p st i j k s1 s2 HI HO E1 E2) as (x & w' & y & c & m' & b' & EX & EC & EY & EPK & LY & (a & EA & ER & CASES) & EC2 & EM2 & <-).
  destruct (aac_codec_plain _ (view (wd_mem (after pol os)) (wd_pkts (after pol os) k)) d h ah buffer0 _ _ Hh Hh2 A1 A2 HT HM (fun _ => eq_refl) EC) as (h1 & HD1 & W1). cbn [w_out buffer0 app] in W1.
  assert (M1 : media_in s1 k = Some (h1 ++ d)) by (unfold media_in; rewrite EA; cbn [option_map]; rewrite ER, W1; reflexivity).
  split; [exists h1; split; [exact HD1|exact M1]|]. unfold packet_in in *.
  assert (M2 : media_in s2 k = Some (rd (wd_mem s2) (bbytes b'))) by (unfold media_in; rewrite EM2; reflexivity). rewrite M2.
  destruct CASES as [[-> HH]|AP].
  - rewrite W1 in HH. assert (L7 : 7 <= len (h1 ++ d)) by (rewrite len_app; destruct HD1 as [-> _]; pose proof (len_nonneg d); lia).
    destruct (aac_codec_self pol (x_codec (am_x y)) (wd_pkts s1 k) (h1 ++ d) h ah (wd_mem s1) (am_media y) c _ b' ltac:(rewrite EPK; exact Hh) Hh2 A1 A2 ltac:(rewrite EPK; exact HT) HH EA L7 EC2) as (hd & HD & (_ & R2 & _)).
    cbn [fst snd] in R2. exists hd, hd. split; [exact HD|]. split; [exact HD|]. f_equal. change (rd (wd_mem s2) (bbytes b')) with (take (arr (wd_mem s2) (b_arr b')) (b_len b')). rewrite R2.
    do 2 f_equal. apply drop_app_len. symmetry. apply HD1.
  - assert (HAP : forall a', ap_media (wd_pkts s1 k) = Some a' -> apart (wd_mem s1, breset (am_media y)) a') by (intros a' E; rewrite EA in E; injection E as <-; exact AP).
    pose proof (codec_same pol (x_codec (am_x y)) (wd_pkts s1 k) (wd_mem s1, breset (am_media y)) buffer0 (fun _ => eq_refl) (reset_holds (wd_mem s1) (am_media y) LY) HAP) as (S1 & S2 & (_ & S3 & _) & _).
    rewrite EC2 in S1, S2, S3. cbn [fst snd] in *. destruct (codec_parse (x_codec (am_x y)) (view (wd_mem s1) (wd_pkts s1 k)) buffer0) as [c2 [w2 r2]] eqn:ECP. cbn [fst snd] in S1, S2, S3. subst c2 r2.
    destruct (aac_codec_plain (x_codec (am_x y)) (view (wd_mem s1) (wd_pkts s1 k)) (h1 ++ d) h ah buffer0 _ _ ltac:(rewrite view_header, EPK; exact Hh) Hh2 A1 A2 ltac:(rewrite view_type, EPK; exact HT) M1 (fun _ => eq_refl) ECP) as (h2 & HD2 & W2). cbn [w_out buffer0 app] in W2.
    exists h2, h1. split; [exact HD2|]. split; [exact HD1|]. f_equal. change (rd (wd_mem s2) (bbytes b')) with (take (arr (wd_mem s2) (b_arr b')) (b_len b')). rewrite S3, W2. reflexivity.
Qed.
Print Assumptions C120_audio_again_refuted.
Example C120_audio_ex : single_use (ex_two ++ [AMux 0 2]) /\ aac_frame (packet_in (after twice ex_two) 2) /\
  media_in (after twice ex_two) 2 = Some [1; 2; 3; 4] /\
  (forall j, In j [0%nat; 1%nat] -> snd (arun twice (after twice ex_two) [AMux 0 2; AMux j 2]) = [Ok tt; Ok tt] /\
     option_map (fun d => drop d 14) (media_in (after twice (ex_two ++ [AMux 0 2; AMux j 2])) 2) = Some [1; 2; 3; 4]).
Proof.
  split; [cbv; tauto|]. split; [split; [vm_compute; reflexivity|]; exists (mkAH 10 1 true false false); split; [vm_compute; reflexivity|split; reflexivity]|]. split; [vm_compute; reflexivity|].
  intros j [<-|[<-|[]]]; vm_compute; auto.
Qed.

(** Refuted for sequence headers: once saved, the packet has no media and every other mixer refuses it. *)
Theorem C120_header_again_refuted : forall pol os i j k, let s := after pol os in
  (avc_header (packet_in s k) -> snd (astep pol s (ASaveAVC i k)) = Ok tt -> wd_mixes (after pol (os ++ [ASaveAVC i k])) j <> None ->
   media_in (after pol (os ++ [ASaveAVC i k])) k = Some [] /\
   snd (astep pol (after pol (os ++ [ASaveAVC i k])) (ASaveAVC j k)) = Err EOther) /\
  (aac_header (packet_in s k) -> snd (astep pol s (ASaveAAC i k)) = Ok tt -> wd_mixes (after pol (os ++ [ASaveAAC i k])) j <> None ->
   media_in (after pol (os ++ [ASaveAAC i k])) k = Some [] /\
   snd (astep pol (after pol (os ++ [ASaveAAC i k])) (ASaveAAC j k)) = Err EOther).
Proof.
  intros pol os i j k. cbv zeta. unfold packet_in. rewrite !after_snoc. set (s := after pol os). split.
  - intros (HT & vh & HV & V1 & V2). destruct (header_of_video _ _ HV) as (h & Hh & Hh2).
    assert (PAR : forall x' t' m' p', ap_pkt p' = ap_pkt (wd_pkts s k) -> forall r s0, mix_parse_a pol x' p' s0 = (t', m', r) -> snd r = Ok tt ->
      m' = mkAP (ap_pkt p') (Some (mkSl (b_arr (snd s0)) 0)) /\ fst r = (fst s0, breset (snd s0))).
    { intros x' t' m' p' EP r s0. unfold mix_parse_a, codec_parse_a. rewrite EP, Hh. unfold video_of in HV |- *. rewrite Hh in *. rewrite HV, HT, V1, V2. change (0 =? PktVideo) with true. cbv iota.
      destruct (ap_media p') as [a|]; [|intros E; injection E as _ _ <-; discriminate]. unfold h264_parse_a. cbn [fst].
      destruct (_ =? 0); [intros E; injection E as _ _ <-; discriminate|]. destruct (parse_specific_info _ _) as [p2 [u|e| |]]; intros E; injection E as _ <- <-; try discriminate. intros _. split; reflexivity. }
    cbn [astep]. unfold on_packet, on_mix. destruct (wd_mixes s i) as [x|]; [|discriminate]. unfold mix_save_avc_a, save_header_a.
    destruct (mix_parse_a pol _ (wd_pkts s k) _) as [[t' p'] [[m1 b1] r]] eqn:EPA. destruct r as [[]|e| |]; try discriminate.
    destruct (PAR _ _ _ _ eq_refl _ _ EPA eq_refl) as [-> EB]. cbn [fst snd] in *. injection EB as -> ->.
    destruct (ts_mux_a _ _ _ _ _ _) as [k' [[m2 [w|b]] r]] eqn:EM; cbn [fst snd].
    all: intros -> HJ; cbn [fst snd wd_mem wd_pkts wd_mixes] in *; split; [unfold media_in; cbn [wd_pkts wd_mem]; rewrite upd_same; reflexivity|].
    all: destruct (upd_nat (wd_mixes s) i _ j) as [y|]; [|congruence]; rewrite upd_same; unfold mix_parse_a, codec_parse_a; cbn [ap_pkt ap_media]; unfold video_of in HV |- *; rewrite Hh in *; rewrite HV, HT, V1, V2; reflexivity.
  - intros (HT & ah & HV & V1 & V2). destruct (header_of_audio _ _ HV) as (h & Hh & Hh2).
    assert (PAR : forall x' t' m' p', ap_pkt p' = ap_pkt (wd_pkts s k) -> forall r s0, mix_parse_a pol x' p' s0 = (t', m', r) -> snd r = Ok tt ->
      m' = mkAP (ap_pkt p') (Some (mkSl (b_arr (snd s0)) 0)) /\ fst r = (fst s0, breset (snd s0))).
    { intros x' t' m' p' EP r s0. unfold mix_parse_a, codec_parse_a. rewrite EP, Hh. unfold audio_of in HV |- *. rewrite Hh in *. rewrite HV, HT, V1, V2. change (1 =? PktVideo) with false. change (1 =? PktAudio) with true. cbv iota.
      destruct (ap_media p') as [a|]; [|intros E; injection E as _ _ <-; discriminate]. unfold aac_parse_a. cbn [fst]. change (0 =? 0) with true. cbv iota.
      destruct (_ =? 0); [intros E; injection E as _ _ <-; discriminate|]. destruct (specific_info _ _) as [p2 [u|e| |]]; intros E; injection E as _ <- <-; try discriminate. intros _. split; reflexivity. }
    cbn [astep]. unfold on_packet, on_mix. destruct (wd_mixes s i) as [x|]; [|discriminate]. unfold mix_save_aac_a, save_header_a.
    destruct (mix_parse_a pol _ (wd_pkts s k) _) as [[t' p'] [[m1 b1] r]] eqn:EPA. destruct r as [[]|e| |]; try discriminate.
    destruct (PAR _ _ _ _ eq_refl _ _ EPA eq_refl) as [-> EB]. cbn [fst snd] in *. injection EB as -> ->.
    destruct (ts_mux_a _ _ _ _ _ _) as [k' [[m2 [w|b]] r]] eqn:EM; cbn [fst snd].
    all: intros -> HJ; cbn [fst snd wd_mem wd_pkts wd_mixes] in *; split; [unfold media_in; cbn [wd_pkts wd_mem]; rewrite upd_same; reflexivity|].
    all: destruct (upd_nat (wd_mixes s) i _ j) as [y|]; [|congruence]; rewrite upd_same; unfold mix_parse_a, codec_parse_a; cbn [ap_pkt ap_media]; unfold audio_of in HV |- *; rewrite Hh in *; rewrite HV, HT, V1, V2; reflexivity.
Qed.
Print Assumptions C120_header_again_refuted.
Example C120_header_ex : let os := [ANewMix 0 buffer0; ANewMix 1 buffer0; ASet 0 ex_seqhdr; ASet 1 ex_avchdr] in
  aac_header (packet_in (after twice os) 0) /\ snd (astep twice (after twice os) (ASaveAAC 0 0)) = Ok tt /\
  avc_header (packet_in (after twice os) 1) /\ snd (astep twice (after twice os) (ASaveAVC 0 1)) = Ok tt /\
  wd_mixes (after twice (os ++ [ASaveAAC 0 0])) 1 <> None /\ wd_mixes (after twice (os ++ [ASaveAVC 0 1])) 1 <> None.
Proof.
  cbv zeta. split; [split; [vm_compute; reflexivity|]; exists (mkAH 10 0 true false true); split; [vm_compute; reflexivity|split; reflexivity]|]. split; [vm_compute; reflexivity|].
  split; [split; [vm_compute; reflexivity|]; exists (mkVH true false true false true 7 0); split; [vm_compute; reflexivity|split; reflexivity]|]. split; [vm_compute; reflexivity|]. split; vm_compute; discriminate.
Qed.

(** Proved for H.264 frames: muxed again at once, by any mixer, the packet keeps the media it got from the first. *)
Theorem C120_video_again_partial : forall pol os i j k, single_use (os ++ [AMux i k]) ->
  avc_frame (packet_in (after pol os) k) -> snd (arun pol (after pol os) [AMux i k; AMux j k]) = [Ok tt; Ok tt] ->
  media_in (after pol (os ++ [AMux i k; AMux j k])) k = media_in (after pol (os ++ [AMux i k])) k.
Proof.
  intros pol os i j k HS (HT & vh & HV & V1 & V2) HR. destruct (header_of_video _ _ HV) as (h & Hh & Hh2). destruct (arun_inv pol os [AMux i k] world0 pworld0 _ inv0 HS) as (p & st & HI & HO).
  fold (after pol os) in HI. rewrite after_snoc, after_app. cbn [arun] in *.
  destruct (astep pol (after pol os) (AMux i k)) as [s1 r1] eqn:E1. destruct (astep pol s1 (AMux j k)) as [s2 r2] eqn:E2. cbn [fst snd] in *. injection HR as -> ->.
  destruct (second_mux pol _ p st i j k s1 s2 HI HO E1 E2) as (x & w' & y & c & m' & b' & EX & EC & EY & EPK & LY & (a & EA & ER & _) & EC2 & EM2 & <-). unfold packet_in in *.
  pose proof (h264_codec_start _ (view (wd_mem (after pol os)) (wd_pkts (after pol os) k)) h vh _ _ Hh Hh2 V1 V2 HT EC) as ST.
  destruct (h264_copy pol (x_codec (am_x y)) (wd_pkts s1 k) h vh a (wd_mem s1) (am_media y) (w_out w') ltac:(rewrite EPK; exact Hh) Hh2 V1 V2 ltac:(rewrite EPK; exact HT) EA ER ST LY) as (c' & m2 & b2 & E3 & (_ & R & _)).
  rewrite EC2 in E3. injection E3 as _ <- <-. unfold media_in. rewrite EM2, EA. cbn [option_map]. f_equal. rewrite ER. exact R.
Qed.
Print Assumptions C120_video_again_partial.
Example C120_video_ex : let os := [ANewMix 0 buffer0; ANewMix 1 buffer0; ASet 2 (ex_avc [0; 0; 0; 2; 65; 7])] in
  single_use (os ++ [AMux 0 2]) /\ avc_frame (packet_in (after twice os) 2) /\ snd (arun twice (after twice os) [AMux 0 2; AMux 1 2]) = [Ok tt; Ok tt] /\
  media_in (after twice (os ++ [AMux 0 2])) 2 = Some [0; 0; 0; 1; 9; 240; 0; 0; 0; 1; 65; 7].
Proof. cbv zeta. split; [cbv; tauto|]. split; [split; [vm_compute; reflexivity|]; exists (mkVH false true false false true 7 0); split; [vm_compute; reflexivity|split; reflexivity]|]. vm_compute. auto. Qed.
