From Verif Require Import Base.Go Base.GoFacts Base.IO Model.AmfTypes Model.Packet Model.Parsers Model.Ts Model.TsAlias Spec.TsAlias
  Proofs.Parsers Proofs.TsPackets Proofs.TsMore Proofs.TsAlias.

Lemma arun_app pol a : forall s b, arun pol s (a ++ b) = let '(s1, r1) := arun pol s a in let '(s2, r2) := arun pol s1 b in (s2, r1 ++ r2).
Proof.
  induction a as [|o a IH]; intros s b; cbn [arun app].
  - destruct (arun pol s b). reflexivity.
  - destruct (astep pol s o) as [s1 r]. rewrite IH. destruct (arun pol s1 a) as [s2 r2]. destruct (arun pol s2 b). reflexivity.
Qed.
Lemma arun_inv pol os rest : forall s p st, inv s p st -> each_once st (os ++ rest) -> exists p' st', inv (fst (arun pol s os)) p' st' /\ each_once st' rest.
Proof.
  induction os as [|o os IH]; intros s p st HI HO; [exists p, st; split; assumption|].
  destruct (astep_sim pol s p st o (os ++ rest) HI HO) as (s' & p' & st' & r & E1 & _ & HI' & HO'). cbn [arun]. rewrite E1.
  destruct (IH s' p' st' HI' HO') as (p2 & st2 & H). destruct (arun pol s' os) as [s2 rs]. exists p2, st2. exact H.
Qed.

(** What a successful Mux does, in any state. *)
Lemma mux_parts pol s i k s' : astep pol s (AMux i k) = (s', Ok tt) ->
  exists x c m' b', wd_mixes s i = Some x /\
    codec_parse_a pol (x_codec (am_x x)) (wd_pkts s k) (wd_mem s, breset (am_media x)) = (c, (m', b', Ok tt)) /\
    wd_mem s' = m' /\ wd_pkts s' = upd_nat (wd_pkts s) k (mkAP (ap_pkt (wd_pkts s k)) (Some (bbytes b'))) /\
    exists x', wd_mixes s' = upd_nat (wd_mixes s) i (Some x') /\ am_media x' = b' /\ x_codec (am_x x') = c /\
      (let '(k', (w', r)) := ts_mux (x_muxer (am_x x)) (view m' (wd_pkts s' k)) (x_dts (am_x x)) (x_pts (am_x x)) (am_w x) in
       am_w x' = w' /\ x_muxer (am_x x') = k' /\ r = Ok tt).
Proof.
  cbn [astep]. unfold on_packet, on_mix. destruct (wd_mixes s i) as [x|] eqn:EX; [|discriminate]. unfold mix_mux_a, mix_parse_a. cbn [fst snd].
  destruct (codec_parse_a _ _ _ _) as [c [[m' b'] r]] eqn:EC. cbn [fst snd]. destruct r as [[]|e| |]; try discriminate.
  rewrite ts_mux_ext. cbn [x_muxer set_codec x_dts x_pts].
  destruct (ts_mux _ _ _ _ _) as [k' [w' r]] eqn:EM. intros H. injection H as <- ->.
  exists x, c, m', b'. split; [reflexivity|]. split; [exact EC|]. do 2 (split; [reflexivity|]). eexists. split; [reflexivity|]. cbn [am_media am_x am_w x_codec x_muxer set_muxer set_codec wd_pkts]. split; [reflexivity|]. split; [reflexivity|].
  rewrite upd_same. rewrite EM. repeat split.
Qed.

Lemma reset_holds (m : mem) b : (b_arr b < length m)%nat -> holds (m, breset b) [].
Proof. intros H. split; [exact H|split; reflexivity]. Qed.
Lemma owner_media s i x : wd_mixes s i = Some x -> owner (wd_mixes s) i 0 (b_arr (am_media x)).
Proof. intros H. exists x. split; [exact H|split; [lia|reflexivity]]. Qed.

Definition adts_like (h : bytes) : Prop := len h = 7 /\ take h 2 = [255; 241].
Lemma adts_like_header p n : adts_like (adts_header p n).
Proof. split; reflexivity. Qed.

(** The codec parser on an AAC frame it accepts. *)
Lemma aac_codec_plain c p d h ah w c' w' : p_header p = Some h -> h_audio h = Some ah -> a_aac ah = true -> a_aactype ah = 1 -> p_type p = PktAudio ->
  p_media p = Some d -> never_fails w -> codec_parse c p w = (c', (w', Ok tt)) ->
  exists hd, adts_like hd /\ w_out w' = w_out w ++ hd ++ d.
Proof.
  intros H1 H2 H3 H4 H5 H6 HN. unfold codec_parse, audio_of. rewrite H1, H6, H5, H2, H3, H4. change (PktAudio =? PktVideo) with false. change (PktAudio =? PktAudio) with true. cbv iota.
  unfold aac_parse. destruct (len d =? 0) eqn:E0; [discriminate|]. change (1 =? 0) with false. change (1 =? 1) with true. cbv iota. unfold add_adts. rewrite E0. cbn [orb].
  destruct (negb _); [discriminate|]. unfold wbind. rewrite write_never by exact HN. rewrite write_never by exact HN. intros H. injection H as _ <-. cbn [w_out].
  eexists. split; [apply adts_like_header|]. rewrite <- app_assoc. reflexivity.
Qed.
(** The same when the frame already lies at the start of the cache it is parsed into. *)
Lemma aac_codec_self pol c p d h ah m b c' m' b' : p_header (ap_pkt p) = Some h -> h_audio h = Some ah -> a_aac ah = true -> a_aactype ah = 1 -> p_type (ap_pkt p) = PktAudio ->
  holds (m, b) d -> ap_media p = Some (bbytes b) -> 7 <= len d -> codec_parse_a pol c p (m, breset b) = (c', (m', b', Ok tt)) ->
  exists hd, adts_like hd /\ holds (m', b') (hd ++ hd ++ drop d 7).
Proof.
  intros H1 H2 H3 H4 H5 HH H6 HL. unfold codec_parse_a, audio_of. rewrite H1, H6, H5, H2, H3, H4. change (PktAudio =? PktVideo) with false. change (PktAudio =? PktAudio) with true. cbv iota.
  unfold aac_parse_a. cbn [fst]. destruct HH as (A1 & A2 & A3). cbn [fst snd] in *. assert (ER : rd m (bbytes b) = d) by exact A2. rewrite ER.
  replace (len d =? 0) with false by lia. change (1 =? 0) with false. change (1 =? 1) with true. cbv iota. destruct (negb _); [discriminate|].
  set (hd := adts_header _ _). assert (LH : len hd = 7) by reflexivity. intros H. apply (f_equal (fun z => fst (snd z))) in H. cbn [fst snd] in H. exists hd. split; [apply adts_like_header|].
  pose proof (reset_holds m b A1) as R0. pose proof (bput_holds pol [] hd _ R0) as R1.
  pose proof (bput_holds pol hd (rd (fst (bput pol hd (m, breset b))) (bbytes b)) _ R1) as R2. rewrite H in R2.
  assert (EA : len (arr m (b_arr b)) >= len d) by (pose proof (f_equal len A2) as L2; unfold take, len in *; rewrite firstn_length in L2; lia).
  assert (E2 : rd (fst (bput pol hd (m, breset b))) (bbytes b) = hd ++ drop d 7).
  { unfold bput. cbn [breset b_arr b_len fst]. replace (0 + len hd <=? len (arr m (b_arr b))) with true by lia. cbn [fst]. unfold rd, bbytes. cbn [s_arr s_len].
    rewrite arr_put_same by exact A1. change (take (arr m (b_arr b)) 0) with (@nil Z). cbn [app]. rewrite (take_app2 hd _ (b_len b)) by (rewrite LH, A3; exact HL). f_equal. rewrite LH, A3. change (0 + 7) with 7.
    replace (drop d 7) with (drop (take (arr m (b_arr b)) (b_len b)) 7) by (rewrite A2; reflexivity). rewrite A3. unfold take, drop. rewrite skipn_firstn_comm. f_equal. lia. }
  rewrite E2 in R2. exact R2.
Qed.

(** Annex B output starts with a start code. *)
Lemma is_start_app a b : is_start a = true -> is_start (a ++ b) = true.
Proof.
  unfold is_start. rewrite len_app. pose proof (len_nonneg b). destruct (Z.ltb_spec (len a) 4) as [H1|H1]; [discriminate|]. replace (len a + len b <? 4) with false by lia.
  assert (E : forall n, 0 <= n < 4 -> at_ (a ++ b) n = at_ a n) by (intros n Hn; unfold at_; apply app_nth1; unfold len in H1; lia).
  rewrite !E by lia. auto.
Qed.
Lemma annexb_loop_ext fuel : forall src info index size has wrote sp w, exists d, w_out (fst (snd (annexb_loop fuel src info index size has wrote sp w))) = w_out w ++ d.
Proof.
  induction fuel as [|fuel IH]; intros src info index size has wrote sp w; cbn [annexb_loop]; (destruct (size <=? 0); [exists []; symmetry; apply app_nil_r|]).
  { exists []. symmetry; apply app_nil_r. }
  assert (Z0 : exists d, w_out w = w_out w ++ d) by (exists []; symmetry; apply app_nil_r).
  destruct (let* t := go_slice src index (len src) in nalu_size t) as [n|e| |]; try exact Z0.
  destruct (n <=? 0); [exact Z0|]. destruct (size - 4 <? n); [exact Z0|]. destruct (go_at src (index + 4)) as [b0|e| |]; try exact Z0.
  destruct (go_slice _ _ _) as [nal|e| |]; try exact Z0. destruct (Z.land b0 31 =? 9); [apply IH|].
  destruct ((Z.land b0 31 =? 5) || (Z.land b0 31 =? 1) || (Z.land b0 31 =? 6)).
  2:{ destruct ((Z.land b0 31 =? 7) || (Z.land b0 31 =? 8)); [apply IH|exact Z0]. }
  assert (WE : forall d w, exists e, w_out (fst (write d w)) = w_out w ++ e).
  { intros d v. unfold write. destruct (w_script v (w_calls v)); cbn [fst w_out]; eexists; reflexivity. }
  assert (W3 : exists e, w_out (fst ((w* _ := (if (Z.land b0 31 =? 5) && negb wrote return Wm unit then write (if has then sp else info) else wret tt) in
                       w* _ := write start_code in write nal) w)) = w_out w ++ e).
  { assert (W1 : exists e, w_out (fst ((if (Z.land b0 31 =? 5) && negb wrote return Wm unit then write (if has then sp else info) else wret tt) w)) = w_out w ++ e).
    { destruct (_ && _); [apply WE|exact Z0]. }
    unfold wbind. destruct ((if (Z.land b0 31 =? 5) && negb wrote return Wm unit then write (if has then sp else info) else wret tt) w) as [w1 [u|e| |]]; try exact W1.
    cbn [fst] in W1. destruct W1 as [e1 W1]. destruct (WE start_code w1) as [e2 W2]. destruct (write start_code w1) as [w2 [u2|e'| |]]; cbn [fst] in *.
    2-4: exists (e1 ++ e2); rewrite W2, W1; symmetry; apply app_assoc.
    destruct (WE nal w2) as [e3 W3]. exists (e1 ++ e2 ++ e3). rewrite W3, W2, W1. rewrite <- !app_assoc. reflexivity. }
  destruct (wbind _ _ w) as [w' [u|e| |]]; try exact W3. cbn [fst] in W3. destruct W3 as [e W3].
  destruct (IH src info (index + 4 + n) (size - 4 - n) has ((Z.land b0 31 =? 5) || wrote) sp w') as [d HD]. exists (e ++ d). rewrite HD, W3. symmetry. apply app_assoc.
Qed.
Lemma h264_codec_start c p h vh c' w' : p_header p = Some h -> h_video h = Some vh -> v_avc vh = true -> v_seq vh = false -> p_type p = PktVideo ->
  codec_parse c p buffer0 = (c', (w', Ok tt)) -> is_start (w_out w') = true.
Proof.
  intros H1 H2 H3 H4 H5. unfold codec_parse, video_of. rewrite H1, H5, H2, H3, H4. change (PktVideo =? PktVideo) with true. cbv iota. destruct (p_media p) as [d|]; [|discriminate].
  unfold h264_parse. destruct (len d =? 0); [discriminate|]. destruct (is_start d) eqn:ES.
  - unfold write. cbn. intros H. injection H as _ <-. exact ES.
  - unfold get_annexb. destruct (len d <? 4); [discriminate|]. change (write nalu_aud buffer0) with (mkW nalu_aud 1 (fun _ => None), Ok tt).
    cbv iota. destruct (annexb_loop_ext (length d) d (h_info (or_new (cp_h264 c) new_h264)) 0 (len d) false false [] (mkW nalu_aud 1 (fun _ => None))) as [e HE].
    destruct (annexb_loop _ _ _ _ _ _ _ _ _) as [sp [w r]]. cbn [fst snd] in HE. intros H. injection H as _ <- _. rewrite HE. apply is_start_app. reflexivity.
Qed.
(** A packet that shows Annex B data is copied, also when the data already lie in the cache. *)
Lemma h264_copy pol c p h vh a m b d : p_header (ap_pkt p) = Some h -> h_video h = Some vh -> v_avc vh = true -> v_seq vh = false -> p_type (ap_pkt p) = PktVideo ->
  ap_media p = Some a -> rd m a = d -> is_start d = true -> (b_arr b < length m)%nat ->
  exists c' m' b', codec_parse_a pol c p (m, breset b) = (c', (m', b', Ok tt)) /\ holds (m', b') d.
Proof.
  intros H1 H2 H3 H4 H5 H6 H7 HS HB. unfold codec_parse_a, video_of. rewrite H1, H6, H5, H2, H3, H4. change (PktVideo =? PktVideo) with true. cbv iota.
  unfold h264_parse_a. cbn [fst]. rewrite H7, HS. destruct (Z.eqb_spec (len d) 0) as [E|E]; [exfalso; unfold is_start in HS; rewrite E in HS; discriminate|].
  pose proof (bput_holds pol [] d _ (reset_holds m b HB)) as R. destruct (bput pol d (m, breset b)) as [m' b']. do 3 eexists. split; [reflexivity|exact R].
Qed.

(** * Whose array a packet's media lies in *)
Definition kept (s : world) (i k : nat) (d : bytes) : Prop :=
  exists a, ap_media (wd_pkts s k) = Some a /\ (s_arr a < length (wd_mem s))%nat /\ rd (wd_mem s) a = d /\
    forall j t, owner (wd_mixes s) j t (s_arr a) -> j = i /\ t = O.
(** Calls that neither use packet k nor mux with mixer i. *)
Definition leaves (i k : nat) (o : aop) : Prop :=
  match o with
  | ASet k' _ | ACopy k' _ => k' <> k
  | AMux i' k' => i' <> i /\ k' <> k
  | ASaveAVC _ k' | ASaveAAC _ k' => k' <> k
  | _ => True
  end.
Lemma kept_pkt s i k d k' p m' mx : kept s i k d -> k' <> k -> (length (wd_mem s) <= length m')%nat ->
  (forall a, ap_media (wd_pkts s k) = Some a -> rd m' a = rd (wd_mem s) a) ->
  (forall j t a, (a < length (wd_mem s))%nat -> owner mx j t a -> owner (wd_mixes s) j t a \/ (j = i /\ t = O)) ->
  kept (mkWd m' (upd_nat (wd_pkts s) k' p) mx) i k d.
Proof.
  intros (a & A1 & A2 & A3 & A4) HK HL HR HO. exists a. cbn [wd_mem wd_pkts wd_mixes]. rewrite upd_other by congruence. split; [exact A1|]. split; [lia|]. split; [rewrite HR by exact A1; exact A3|].
  intros j t H. destruct (HO j t _ A2 H) as [H1|H1]; [apply A4, H1|exact H1].
Qed.
Lemma kept_same s i k d mx : kept s i k d -> (forall j t a, owner mx j t a -> owner (wd_mixes s) j t a) -> kept (mkWd (wd_mem s) (wd_pkts s) mx) i k d.
Proof. intros (a & A1 & A2 & A3 & A4) H. exists a. repeat (split; [assumption|]). intros j t O. apply A4, H, O. Qed.
Lemma owner_same_bufs mx i x x' : mx i = Some x -> (forall t, bufof x' t = bufof x t) -> forall j t a, owner (upd_nat mx i (Some x')) j t a -> owner mx j t a.
Proof.
  intros HX HB j t a H. destruct (Nat.eq_dec j i) as [->|Hj]; [|rewrite owner_upd_other in H by exact Hj; exact H].
  apply owner_upd_same in H. rewrite HB in H. exists x. tauto.
Qed.
Lemma kept_packet_op s i k d i' k' x x' p' m' t0 : kept s i k d -> wd_mixes s i' = Some x -> (t0 < 3)%nat -> ~ (i' = i /\ t0 = O) -> k' <> k ->
  (forall j t j' t' a, owner (wd_mixes s) j t a -> owner (wd_mixes s) j' t' a -> j = j' /\ t = t') ->
  bstep (wd_mem s, bufof x t0) (m', bufof x' t0) -> (forall t, t <> t0 -> (t < 3)%nat -> bufof x' t = bufof x t) ->
  kept (mkWd m' (upd_nat (wd_pkts s) k' p') (upd_nat (wd_mixes s) i' (Some x'))) i k d.
Proof.
  intros HK HX HT HI HKK HU (B1 & B2 & B3 & B4 & _) HB. cbn [fst snd] in *. pose proof HK as (a & A1 & A2 & A3 & A4).
  apply (kept_pkt s i k d k' p' m' _ HK HKK B1).
  - intros a0 E. rewrite A1 in E. injection E as <-. unfold rd. rewrite B4; [reflexivity|exact A2|]. intros E. apply HI, (A4 i' t0). rewrite E. exists x. auto.
  - intros j t c Hc H. destruct (Nat.eq_dec j i') as [->|Hj]; [|left; rewrite owner_upd_other in H by exact Hj; exact H].
    apply owner_upd_same in H. destruct H as [Ht Ha]. left. destruct (Nat.eq_dec t t0) as [->|Hn].
    + destruct B3 as [B3|B3]; [exists x; rewrite <- Ha, B3; auto|lia].
    + rewrite HB in Ha by assumption. exists x. auto.
Qed.
Lemma kept_step pol s p st i k d o s' r os : inv s p st -> each_once st (o :: os) -> kept s i k d -> leaves i k o -> astep pol s o = (s', r) -> kept s' i k d.
Proof.
  intros HI HO HK HV E. pose proof HI as (I1 & I2 & _ & I4 & I5).
  assert (PRE : forall i' x k' t, wd_mixes s i' = Some x -> (t < 3)%nat -> st k' = false ->
    (b_arr (bufof x t) < length (wd_mem s))%nat /\ view (wd_mem s) (wd_pkts s k') = view (wd_mem s) (wd_pkts s k') /\
    forall a, ap_media (wd_pkts s k') = Some a -> apart (wd_mem s, bufof x t) a).
  { intros i' x k' t HX Ht Hst. destruct (I4 k' Hst) as [V A].
    assert (O : owner (wd_mixes s) i' t (b_arr (bufof x t))) by (exists x; auto).
    split; [exact (I1 _ _ _ O)|]. split; [reflexivity|]. intros a Ha. destruct (A a Ha) as [L NO]. split; [exact L|]. intros E0. cbn [snd] in E0. rewrite <- E0 in O. exact (NO _ _ O). }
  assert (XE : forall i' x, wd_mixes s i' = Some x -> exists y, xeq (am_x x) y).
  { intros i' x HX. specialize (I5 i'). rewrite HX in I5. destruct (pw_mixes p i') as [[y w]|]; [|contradiction]. exists y. apply I5. }
  destruct o as [k' q|k' j|i' w|i' k'|i' md|i' k'|i' k'|i'|i' k' a b|i' w]; cbn [astep leaves each_once] in *.
  - destruct (set_pkt_media (wd_mem s) q) as [m' ap] eqn:EP. injection E as <- <-.
    assert (EM : exists e, m' = wd_mem s ++ e) by (unfold set_pkt_media in EP; destruct (p_media q); injection EP as <- <-; [eexists; reflexivity|exists []; symmetry; apply app_nil_r]).
    destruct EM as [e ->]. apply (kept_pkt s i k d k' ap _ _ HK HV); [rewrite app_length; lia| |auto].
    intros a Ha. destruct HK as (a0 & A1 & A2 & _). rewrite A1 in Ha. injection Ha as <-. unfold rd. rewrite arr_app1 by exact A2. reflexivity.
  - injection E as <- <-. apply (kept_pkt s i k d k' _ _ _ HK HV); auto.
  - unfold new_amix in E. injection E as <- <-. destruct HK as (a & A1 & A2 & A3 & A4). exists a. cbn [wd_mem wd_pkts wd_mixes]. split; [exact A1|]. split; [rewrite app_length; lia|].
    split; [unfold rd; rewrite arr_app1 by exact A2; exact A3|]. intros j t H. destruct (Nat.eq_dec j i') as [->|Hj]; [|rewrite owner_upd_other in H by exact Hj; apply A4, H].
    apply owner_upd_same in H. destruct H as [Ht Ha]. destruct t as [|[|[|t]]]; cbn [bufof am_media am_avc am_aac b_arr] in Ha; lia.
  - destruct HV as [HV1 HV2]. destruct HO as [Hst _]. unfold on_packet, on_mix in E. destruct (wd_mixes s i') as [x|] eqn:EX; [|injection E as <- <-; exact HK].
    destruct (PRE i' x k' O EX ltac:(lia) Hst) as (P1 & P2 & P3). destruct (XE i' x EX) as [y HX].
    destruct (mux_sim pol x y (am_w x) (wd_pkts s k') _ (wd_mem s) eq_refl HX P1 P2 P3) as (x' & y' & p' & q' & m' & w' & r' & G1 & _ & B & B2 & B3 & _).
    rewrite G1 in E. injection E as <- <-. apply (kept_packet_op s i k d i' k' x x' p' m' O HK EX); try assumption; [lia|tauto|]. intros [|[|t]] Ht Ht3; cbn [bufof]; congruence.
  - unfold on_mix in E. destruct (wd_mixes s i') as [x|] eqn:EX; [|injection E as <- <-; exact HK]. cbn in E. injection E as <- <-. apply kept_same; [exact HK|]. apply (owner_same_bufs _ _ x); [exact EX|reflexivity].
  - destruct HO as [Hst _]. unfold on_packet, on_mix in E. destruct (wd_mixes s i') as [x|] eqn:EX; [|injection E as <- <-; exact HK].
    destruct (PRE i' x k' 1%nat EX ltac:(lia) Hst) as (P1 & P2 & P3). destruct (XE i' x EX) as [y HX]. unfold mix_save_avc_a in E. set (ty := types_is_video _) in E.
    destruct (save_sim pol (set_types ty (am_x x)) (set_types ty y) (wd_pkts s k') _ (wd_mem s, am_avc x) (xeq_types _ _ ty HX) P1 P2 P3) as (t' & y' & p' & q' & [m' b'] & r' & G1 & _ & B & _).
    rewrite G1 in E. injection E as <- <-. apply (kept_packet_op s i k d i' k' x (mkAM t' (am_w x) (am_media x) b' (am_aac x)) p' m' 1%nat HK EX); try assumption; [lia|lia|].
    intros [|[|t]] Ht Ht3; cbn [bufof am_media am_avc am_aac]; congruence.
  - destruct HO as [Hst _]. unfold on_packet, on_mix in E. destruct (wd_mixes s i') as [x|] eqn:EX; [|injection E as <- <-; exact HK].
    destruct (PRE i' x k' 2%nat EX ltac:(lia) Hst) as (P1 & P2 & P3). destruct (XE i' x EX) as [y HX]. unfold mix_save_aac_a in E. set (ty := types_is_audio _) in E.
    destruct (save_sim pol (set_types ty (am_x x)) (set_types ty y) (wd_pkts s k') _ (wd_mem s, am_aac x) (xeq_types _ _ ty HX) P1 P2 P3) as (t' & y' & p' & q' & [m' b'] & r' & G1 & _ & B & _).
    rewrite G1 in E. injection E as <- <-. apply (kept_packet_op s i k d i' k' x (mkAM t' (am_w x) (am_media x) (am_avc x) b') p' m' 2%nat HK EX); try assumption; [lia|lia|].
    intros [|[|[|t]]] Ht Ht3; cbn [bufof am_media am_avc am_aac]; congruence || lia.
  - unfold on_mix in E. destruct (wd_mixes s i') as [x|] eqn:EX; [|injection E as <- <-; exact HK]. destruct (mix_set_header _ _) as [t [w r']]. injection E as <- <-. apply kept_same; [exact HK|].
    apply (owner_same_bufs _ _ x); [exact EX|reflexivity].
  - unfold on_mix in E. destruct (wd_mixes s i') as [x|] eqn:EX; [|injection E as <- <-; exact HK]. destruct (mix_update _ _ _ _) as [t r']. injection E as <- <-. apply kept_same; [exact HK|].
    apply (owner_same_bufs _ _ x); [exact EX|reflexivity].
  - unfold on_mix in E. destruct (wd_mixes s i') as [x|] eqn:EX; [|injection E as <- <-; exact HK]. injection E as <- <-. apply kept_same; [exact HK|].
    apply (owner_same_bufs _ _ x); [exact EX|reflexivity].
Qed.
Lemma kept_run pol i k d os : forall s p st, inv s p st -> each_once st os -> kept s i k d -> Forall (leaves i k) os -> kept (fst (arun pol s os)) i k d.
Proof.
  induction os as [|o os IH]; intros s p st HI HO HK HF; [exact HK|]. inversion HF as [|? ? H1 H2]; subst.
  destruct (astep_sim pol s p st o os HI HO) as (s' & p' & st' & r & E & _ & HI' & HO'). pose proof (kept_step pol s p st i k d o s' r os HI HO HK H1 E) as HK'.
  cbn [arun]. rewrite E. specialize (IH s' p' st' HI' HO' HK' H2). destruct (arun pol s' os). exact IH.
Qed.
(** After Mux the packet's media lies in that mixer's media cache, and nowhere else. *)
Lemma kept_after_mux pol s p st i k s' os : inv s p st -> each_once st (AMux i k :: os) -> astep pol s (AMux i k) = (s', Ok tt) ->
  exists d, option_map (rd (wd_mem s')) (ap_media (wd_pkts s' k)) = Some d /\ kept s' i k d.
Proof.
  intros HI HO E. destruct (astep_sim pol s p st _ os HI HO) as (s2 & p' & st' & r & E2 & _ & (I1 & I2 & _) & _). rewrite E in E2. injection E2 as <- <-.
  destruct (mux_parts pol s i k s' E) as (x & c & m' & b' & EX & EC & <- & EP & x' & EM & EB & _). rewrite EP, upd_same. cbn [ap_media option_map].
  assert (O : owner (wd_mixes s') i 0 (b_arr b')) by (rewrite EM; exists x'; rewrite upd_same; split; [reflexivity|split; [lia|cbn [bufof]; rewrite EB; reflexivity]]).
  eexists. split; [reflexivity|]. exists (bbytes b'). rewrite EP, upd_same. split; [reflexivity|]. split; [apply (I1 _ _ _ O)|]. split; [reflexivity|].
  intros j t H. destruct (I2 _ _ _ _ _ O H) as [-> <-]. split; reflexivity.
Qed.

(** * Writing in place *)
(** While the data fit the array, the array stays and what follows the data keeps its bytes. *)
Definition inpl (s s' : mem * buf) : Prop :=
  b_len (snd s) <= b_len (snd s') /\
  ((b_arr (snd s) < length (fst s))%nat -> 0 <= b_len (snd s) -> b_len (snd s') <= len (arr (fst s) (b_arr (snd s))) ->
   b_arr (snd s') = b_arr (snd s) /\ (b_arr (snd s') < length (fst s'))%nat /\
   len (arr (fst s') (b_arr (snd s))) = len (arr (fst s) (b_arr (snd s))) /\
   drop (arr (fst s') (b_arr (snd s))) (b_len (snd s')) = drop (arr (fst s) (b_arr (snd s))) (b_len (snd s'))).
Lemma inpl_refl s : inpl s s.
Proof. unfold inpl. split; [lia|]. intros. repeat split; assumption. Qed.
Lemma drop_more (a c : bytes) n k : 0 <= n <= k -> drop a n = drop c n -> drop a k = drop c k.
Proof.
  intros H E. replace (drop a k) with (drop (drop a n) (k - n)); [replace (drop c k) with (drop (drop c n) (k - n)); [rewrite E; reflexivity|]|];
    unfold drop; rewrite skipn_skipn; f_equal; lia.
Qed.
Lemma inpl_trans a b c : inpl a b -> inpl b c -> inpl a c.
Proof.
  intros (H1 & H2) (K1 & K2). split; [lia|]. intros L1 L2 L3. destruct (H2 L1 L2 ltac:(lia)) as (E1 & E2 & E3 & E4).
  rewrite E1 in *. destruct (K2 E2 ltac:(lia) ltac:(lia)) as (F1 & F2 & F3 & F4). split; [exact F1|]. split; [exact F2|]. split; [lia|]. rewrite F4. apply (drop_more _ _ (b_len (snd b))); [lia|exact E4].
Qed.
Lemma drop_app_len (a b : bytes) n : n = len a -> drop (a ++ b) n = b.
Proof. intros ->. unfold drop, len. rewrite Nat2Z.id, skipn_app, skipn_all, Nat.sub_diag. reflexivity. Qed.
Lemma inpl_bput pol d s : inpl s (bput pol d s).
Proof.
  destruct s as [m b]. unfold bput. pose proof (len_nonneg d). destruct (Z.leb_spec (b_len b + len d) (len (arr m (b_arr b)))) as [H1|H1]; unfold inpl; cbn [fst snd b_arr b_len]; (split; [lia|]); intros L1 L2 L3; [|lia].
  rewrite len_put. rewrite arr_put_same by exact L1. split; [reflexivity|]. split; [exact L1|].
  assert (E : len (take (arr m (b_arr b)) (b_len b) ++ d) = b_len b + len d) by (rewrite len_app; unfold take, len in *; rewrite firstn_length; lia). split.
  - rewrite app_assoc, len_app, E. unfold drop, len in *. rewrite skipn_length. lia.
  - rewrite app_assoc. apply drop_app_len. symmetry. exact E.
Qed.
Lemma annexb_inpl pol fuel src info : forall index size has wrote sp s, inpl s (fst (snd (annexb_loop_a pol fuel src info index size has wrote sp s))).
Proof.
  induction fuel as [|fuel IH]; intros index size has wrote sp s; cbn [annexb_loop_a]; (destruct (size <=? 0); [apply inpl_refl|]); [apply inpl_refl|].
  destruct (let* t := _ in nalu_size t) as [n|e| |]; try apply inpl_refl. destruct (n <=? 0); [apply inpl_refl|]. destruct (_ <? n); [apply inpl_refl|].
  destruct (go_at _ _) as [b0|e| |]; try apply inpl_refl. destruct (go_slice _ _ _) as [nal|e| |]; try apply inpl_refl.
  destruct (_ =? 9); [apply IH|]. destruct ((_ =? 5) || (_ =? 1) || (_ =? 6)).
  2:{ destruct (_ || _); [apply IH|apply inpl_refl]. }
  refine (inpl_trans _ _ _ _ (IH _ _ _ _ _ _)). refine (inpl_trans _ _ _ _ (inpl_bput _ _ _)). refine (inpl_trans _ _ _ _ (inpl_bput _ _ _)).
  destruct (_ && _); [apply inpl_bput|apply inpl_refl].
Qed.
Lemma codec_inpl pol c p s : inpl s (fst (snd (codec_parse_a pol c p s))).
Proof.
  unfold codec_parse_a. destruct (p_header (ap_pkt p)) as [h|]; [|apply inpl_refl]. destruct (ap_media p) as [a|]; [|apply inpl_refl].
  destruct (_ =? PktVideo).
  - destruct (video_of _) as [vh|]; [|apply inpl_refl]. destruct (v_avc vh); [|apply inpl_refl].
    assert (H : inpl s (fst (snd (h264_parse_a pol (or_new (cp_h264 c) new_h264) a (v_seq vh) s)))).
    { unfold h264_parse_a, get_annexb_a. destruct (_ =? 0); [apply inpl_refl|]. destruct (v_seq vh); [destruct (parse_specific_info _ _); apply inpl_refl|].
      destruct (is_start _); [apply inpl_bput|]. destruct (_ <? 4); [apply inpl_refl|].
      match goal with |- context[annexb_loop_a ?a ?b ?c ?d ?e ?f ?g ?h ?i ?j] => pose proof (annexb_inpl a b c d e f g h i j) as H; destruct (annexb_loop_a a b c d e f g h i j) as [sp sr] end.
      exact (inpl_trans _ _ _ (inpl_bput _ _ _) H). }
    destruct (h264_parse_a _ _ _ _ _) as [h' sr]. exact H.
  - destruct (_ =? PktAudio); [|apply inpl_refl]. destruct (audio_of _) as [ah|]; [|apply inpl_refl]. destruct (a_aac ah).
    + assert (H : inpl s (fst (snd (aac_parse_a pol (or_new (cp_aac c) new_aac) a (a_aactype ah) s)))).
      { unfold aac_parse_a. destruct (_ =? 0); [apply inpl_refl|]. destruct (_ =? 0); [destruct (specific_info _ _); apply inpl_refl|]. destruct (_ =? 1); [|apply inpl_refl].
        destruct (negb _); [apply inpl_refl|]. exact (inpl_trans _ _ _ (inpl_bput _ _ _) (inpl_bput _ _ _)). }
      destruct (aac_parse_a _ _ _ _ _) as [h' sr]. exact H.
    + destruct (a_mp3 ah); [destruct (mp3_parse _ _)|]; apply inpl_refl.
Qed.

(** The first Mux of a packet, whose media lie apart from the caches. *)
Lemma first_mux pol s p st i k s' os : inv s p st -> each_once st (AMux i k :: os) -> astep pol s (AMux i k) = (s', Ok tt) ->
  exists x c w' b' x', wd_mixes s i = Some x /\ codec_parse (x_codec (am_x x)) (view (wd_mem s) (wd_pkts s k)) buffer0 = (c, (w', Ok tt)) /\
    wd_pkts s' = upd_nat (wd_pkts s) k (mkAP (ap_pkt (wd_pkts s k)) (Some (bbytes b'))) /\ holds (wd_mem s', b') (w_out w') /\
    wd_mixes s' = upd_nat (wd_mixes s) i (Some x') /\ am_media x' = b' /\ x_codec (am_x x') = c /\
    bstep (wd_mem s, am_media x) (wd_mem s', b') /\ (exists p' st', inv s' p' st' /\ each_once st' os).
Proof.
  intros HI HO E. destruct (astep_sim pol s p st _ os HI HO) as (s2 & p' & st' & r & E2 & _ & HI' & HO'). rewrite E in E2. injection E2 as <- <-.
  destruct (mux_parts pol s i k s' E) as (x & c & m' & b' & EX & EC & EM & EP & x' & EX' & EB & EC' & _).
  pose proof HI as (I1 & _ & _ & I4 & _). destruct HO as [Hst _]. destruct (I4 k Hst) as [_ A].
  pose proof (owner_media s i x EX) as O.
  assert (AP : forall a, ap_media (wd_pkts s k) = Some a -> apart (wd_mem s, breset (am_media x)) a).
  { intros a Ha. destruct (A a Ha) as [L NO]. split; [exact L|]. cbn [snd breset b_arr]. intros E0. rewrite <- E0 in O. exact (NO _ _ O). }
  pose proof (codec_same pol (x_codec (am_x x)) (wd_pkts s k) (wd_mem s, breset (am_media x)) buffer0 (fun _ => eq_refl) (reset_holds (wd_mem s) (am_media x) (I1 _ _ _ O)) AP) as (S1 & S2 & S3 & S4 & _).
  rewrite EC in S1, S2, S3, S4. cbn [fst snd] in *. destruct (codec_parse _ _ _) as [c2 [w' r2]] eqn:ECP. cbn [fst snd] in *. subst c2 r2.
  exists x, c, w', b', x'. split; [exact EX|]. split; [exact ECP|]. split; [exact EP|]. split; [rewrite EM; exact S3|]. split; [exact EX'|]. split; [exact EB|]. split; [exact EC'|].
  split; [rewrite EM; exact S4|]. exists p', st'. split; assumption.
Qed.
Lemma view_type m p : p_type (view m p) = p_type (ap_pkt p). Proof. reflexivity. Qed.
Lemma view_header m p : p_header (view m p) = p_header (ap_pkt p). Proof. reflexivity. Qed.
(** Its second Mux, by any mixer. *)
Lemma second_mux pol s p st i j k s1 s2 : inv s p st -> each_once st [AMux i k] -> astep pol s (AMux i k) = (s1, Ok tt) -> astep pol s1 (AMux j k) = (s2, Ok tt) ->
  exists x w' y c m' b', wd_mixes s i = Some x /\ codec_parse (x_codec (am_x x)) (view (wd_mem s) (wd_pkts s k)) buffer0 = (fst (codec_parse (x_codec (am_x x)) (view (wd_mem s) (wd_pkts s k)) buffer0), (w', Ok tt)) /\
    wd_mixes s1 j = Some y /\ ap_pkt (wd_pkts s1 k) = ap_pkt (wd_pkts s k) /\ (b_arr (am_media y) < length (wd_mem s1))%nat /\
    (exists a, ap_media (wd_pkts s1 k) = Some a /\ rd (wd_mem s1) a = w_out w' /\
      ((a = bbytes (am_media y) /\ holds (wd_mem s1, am_media y) (w_out w')) \/ apart (wd_mem s1, breset (am_media y)) a)) /\
    codec_parse_a pol (x_codec (am_x y)) (wd_pkts s1 k) (wd_mem s1, breset (am_media y)) = (c, (m', b', Ok tt)) /\
    ap_media (wd_pkts s2 k) = Some (bbytes b') /\ wd_mem s2 = m'.
Proof.
  intros HI HO E1 E2. destruct (first_mux pol s p st i k s1 [] HI HO E1) as (x & c1 & w' & b' & x' & EX & EC & EP & HH & EX' & EB & _ & BS & p' & st' & (J1 & J2 & _) & _).
  destruct (mux_parts pol s1 j k s2 E2) as (y & c & m' & b2 & EY & EC2 & EM & EP2 & _).
  exists x, w', y, c, m', b2. split; [exact EX|]. split; [rewrite EC; reflexivity|]. split; [exact EY|]. split; [rewrite EP, upd_same; reflexivity|].
  pose proof (owner_media s1 j y EY) as OY. split; [exact (J1 _ _ _ OY)|]. split; [|split; [exact EC2|split; [rewrite EP2, upd_same; reflexivity|exact EM]]].
  exists (bbytes b'). split; [rewrite EP, upd_same; reflexivity|]. split; [apply HH|].
  assert (EXI : wd_mixes s1 i = Some x') by (rewrite EX', upd_same; reflexivity). pose proof (owner_media s1 i x' EXI) as OX.
  destruct (Nat.eq_dec j i) as [->|Hj].
  - left. rewrite EXI in EY. injection EY as <-. rewrite EB. split; [reflexivity|exact HH].
  - right. split; [apply HH|]. cbn [snd breset b_arr bbytes s_arr]. rewrite <- EB. intros E0. rewrite E0 in OX. destruct (J2 _ _ _ _ _ OX OY). congruence.
Qed.
