(** What a packet's Media shows after later calls. *)
From Verif Require Import Base.Go Base.GoFacts Base.IO Model.AmfTypes Model.Packet Model.Parsers Model.Ts Model.TsAlias Spec.TsAlias Spec.TsShown
  Proofs.Parsers Proofs.TsPackets Proofs.TsMore Proofs.TsAlias Proofs.TsShare.

(** * Lists *)
Lemma len_take (a : bytes) n : 0 <= n <= len a -> len (take a n) = n.
Proof. intros H. unfold take, len in *. rewrite firstn_length. lia. Qed.
Lemma take_over (A w : bytes) n : 0 <= n <= len A -> len w <= len A -> take (w ++ drop A (len w)) n = over (take A n) w.
Proof.
  intros H1 H2. unfold over. rewrite len_take by exact H1. unfold take, drop. rewrite firstn_app. f_equal.
  unfold len in *. rewrite skipn_firstn_comm. f_equal. lia.
Qed.
Lemma over_len d w : len (over d w) = len d.
Proof. unfold over, take, drop, len. rewrite app_length, firstn_length, skipn_length. lia. Qed.

(** * Writing through a buffer, exactly *)
Definition laid (s s' : mem * buf) : Prop :=
  bstep s s' /\ forall d0, holds s d0 -> exists d, holds s' (d0 ++ d) /\
    ((b_arr (snd s') = b_arr (snd s) /\ len (d0 ++ d) <= len (arr (fst s) (b_arr (snd s))) /\
      arr (fst s') (b_arr (snd s)) = (d0 ++ d) ++ drop (arr (fst s) (b_arr (snd s))) (len (d0 ++ d))) \/
     ((length (fst s) <= b_arr (snd s'))%nat /\ len (arr (fst s) (b_arr (snd s))) < len (d0 ++ d) /\
      exists j, len d0 <= j <= len (arr (fst s) (b_arr (snd s))) /\
        arr (fst s') (b_arr (snd s)) = take (d0 ++ d) j ++ drop (arr (fst s) (b_arr (snd s))) j)).
Lemma holds_arr s d : holds s d -> len d <= len (arr (fst s) (b_arr (snd s))) /\ arr (fst s) (b_arr (snd s)) = d ++ drop (arr (fst s) (b_arr (snd s))) (len d).
Proof.
  intros (_ & H2 & H3). set (A := arr _ _) in *. rewrite H3 in H2. split.
  - rewrite <- H2 at 1. unfold take, len. rewrite firstn_length. lia.
  - pose proof (take_drop A (len d)) as T. rewrite H2 in T. symmetry. exact T.
Qed.
Lemma laid_refl s : laid s s.
Proof.
  split; [apply bstep_refl|]. intros d0 H. exists []. rewrite app_nil_r. split; [exact H|]. left. destruct (holds_arr s d0 H) as [H1 H2]. split; [reflexivity|]. split; [exact H1|exact H2].
Qed.
Lemma laid_bput pol d s : laid s (bput pol d s).
Proof.
  split; [apply bput_step|]. intros d0 H. exists d. split; [apply bput_holds, H|]. destruct (holds_arr s d0 H) as [L E]. destruct H as (H1 & H2 & H3).
  destruct s as [m b]. cbn [fst snd] in *. unfold bput. rewrite H3, <- len_app. destruct (Z.leb_spec (len (d0 ++ d)) (len (arr m (b_arr b)))) as [F|F]; cbn [fst snd b_arr].
  - left. split; [reflexivity|]. split; [exact F|]. rewrite arr_put_same by exact H1. rewrite H3 in H2. rewrite H2, app_assoc. reflexivity.
  - right. split; [lia|]. split; [exact F|]. exists (len d0). split; [lia|]. rewrite arr_app1 by exact H1. rewrite take_app_len by reflexivity. exact E.
Qed.
Lemma laid_trans a b c : laid a b -> laid b c -> laid a c.
Proof.
  intros (S1 & H1) (S2 & H2). split; [exact (bstep_trans _ _ _ S1 S2)|]. intros d0 HH. pose proof HH as (HA & _). destruct (H1 d0 HH) as (d & HB & C1).
  destruct (H2 _ HB) as (d' & HC & C2). exists (d ++ d'). rewrite app_assoc. split; [exact HC|]. set (w := d0 ++ d) in *. set (A := arr (fst a) (b_arr (snd a))) in *.
  assert (LW : len (w ++ d') = len w + len d') by apply len_app. pose proof (len_nonneg d') as ND. pose proof (len_nonneg w) as NW. pose proof (len_nonneg d0) as N0.
  assert (LD : len w = len d0 + len d) by (unfold w; apply len_app). pose proof (len_nonneg d) as ND2.
  destruct C1 as [(E1 & F1 & G1)|(E1 & F1 & j & J1 & G1)].
  - rewrite E1 in C2. assert (LA : len (arr (fst b) (b_arr (snd a))) = len A) by (rewrite G1, len_app; unfold drop, len in *; rewrite skipn_length; lia).
    rewrite LA in C2.
    assert (DR : forall n, len w <= n -> drop (arr (fst b) (b_arr (snd a))) n = drop A n).
    { intros n Hn. apply (drop_more _ _ (len w)); [lia|]. rewrite G1. apply drop_app_len. reflexivity. }
    destruct C2 as [(E2 & F2 & G2)|(E2 & F2 & j & J2 & G2)].
    + left. split; [congruence|]. split; [exact F2|]. rewrite G2, DR by lia. reflexivity.
    + right. split; [destruct S1; lia|]. split; [exact F2|]. exists j. split; [lia|]. rewrite G2, DR by lia. reflexivity.
  - right. split; [|split; [lia|]].
    + destruct S2 as (T1 & _ & T3 & _). destruct T3 as [->|T3]; [exact E1|]. destruct S1 as (T & _). lia.
    + exists j. split; [exact J1|]. destruct S2 as (_ & _ & _ & T4 & _). rewrite T4; [|destruct S1; lia|lia]. rewrite G1. f_equal. unfold take, len in *. rewrite firstn_app. replace (Z.to_nat j - length w)%nat with O by lia. cbn [firstn]. symmetry. apply app_nil_r.
Qed.
Lemma annexb_laid pol fuel src info : forall index size has wrote sp s, laid s (fst (snd (annexb_loop_a pol fuel src info index size has wrote sp s))).
Proof.
  induction fuel as [|fuel IH]; intros index size has wrote sp s; cbn [annexb_loop_a]; (destruct (size <=? 0); [apply laid_refl|]); [apply laid_refl|].
  destruct (let* t := _ in nalu_size t) as [n|e| |]; try apply laid_refl. destruct (n <=? 0); [apply laid_refl|]. destruct (_ <? n); [apply laid_refl|].
  destruct (go_at _ _) as [b0|e| |]; try apply laid_refl. destruct (go_slice _ _ _) as [nal|e| |]; try apply laid_refl.
  destruct (_ =? 9); [apply IH|]. destruct ((_ =? 5) || (_ =? 1) || (_ =? 6)).
  2:{ destruct (_ || _); [apply IH|apply laid_refl]. }
  refine (laid_trans _ _ _ _ (IH _ _ _ _ _ _)). refine (laid_trans _ _ _ _ (laid_bput _ _ _)). refine (laid_trans _ _ _ _ (laid_bput _ _ _)).
  destruct (_ && _); [apply laid_bput|apply laid_refl].
Qed.
Lemma codec_laid pol c p s : laid s (fst (snd (codec_parse_a pol c p s))).
Proof.
  unfold codec_parse_a. destruct (p_header (ap_pkt p)) as [h|]; [|apply laid_refl]. destruct (ap_media p) as [a|]; [|apply laid_refl].
  destruct (_ =? PktVideo).
  - destruct (video_of _) as [vh|]; [|apply laid_refl]. destruct (v_avc vh); [|apply laid_refl].
    assert (H : laid s (fst (snd (h264_parse_a pol (or_new (cp_h264 c) new_h264) a (v_seq vh) s)))).
    { unfold h264_parse_a, get_annexb_a. destruct (_ =? 0); [apply laid_refl|]. destruct (v_seq vh); [destruct (parse_specific_info _ _); apply laid_refl|].
      destruct (is_start _); [apply laid_bput|]. destruct (_ <? 4); [apply laid_refl|].
      match goal with |- context[annexb_loop_a ?a ?b ?c ?d ?e ?f ?g ?h ?i ?j] => pose proof (annexb_laid a b c d e f g h i j) as H; destruct (annexb_loop_a a b c d e f g h i j) as [sp sr] end.
      exact (laid_trans _ _ _ (laid_bput _ _ _) H). }
    destruct (h264_parse_a _ _ _ _ _) as [h' sr]. exact H.
  - destruct (_ =? PktAudio); [|apply laid_refl]. destruct (audio_of _) as [ah|]; [|apply laid_refl]. destruct (a_aac ah).
    + assert (H : laid s (fst (snd (aac_parse_a pol (or_new (cp_aac c) new_aac) a (a_aactype ah) s)))).
      { unfold aac_parse_a. destruct (_ =? 0); [apply laid_refl|]. destruct (_ =? 0); [destruct (specific_info _ _); apply laid_refl|]. destruct (_ =? 1); [|apply laid_refl].
        destruct (negb _); [apply laid_refl|]. exact (laid_trans _ _ _ (laid_bput _ _ _) (laid_bput _ _ _)). }
      destruct (aac_parse_a _ _ _ _ _) as [h' sr]. exact H.
    + destruct (a_mp3 ah); [destruct (mp3_parse _ _)|]; apply laid_refl.
Qed.

(** * One array through the calls *)
(** Array [c] has bytes [A], and can only be the media cache of mixer [i]. *)
Definition alone (s : world) (i c : nat) (A : bytes) : Prop :=
  (c < length (wd_mem s))%nat /\ arr (wd_mem s) c = A /\ forall j t, owner (wd_mixes s) j t c -> j = i /\ t = O.
Lemma alone_same s i c A ps mx : alone s i c A -> (forall j t a, owner mx j t a -> owner (wd_mixes s) j t a) -> alone (mkWd (wd_mem s) ps mx) i c A.
Proof. intros (H1 & H2 & H3) H. split; [exact H1|]. split; [exact H2|]. intros j t O. apply H3, H, O. Qed.
Lemma alone_packet s i c A i' x x' ps m' t0 : alone s i c A -> wd_mixes s i' = Some x -> (t0 < 3)%nat -> ~ (i' = i /\ t0 = O) ->
  bstep (wd_mem s, bufof x t0) (m', bufof x' t0) -> (forall t, t <> t0 -> (t < 3)%nat -> bufof x' t = bufof x t) ->
  alone (mkWd m' ps (upd_nat (wd_mixes s) i' (Some x'))) i c A.
Proof.
  intros (H1 & H2 & H3) HX HT HI (B1 & B2 & B3 & B4 & _) HB. unfold alone. cbn [fst snd wd_mem wd_mixes] in *. split; [lia|]. split.
  - rewrite B4; [exact H2|exact H1|]. intros E. apply HI, (H3 i' t0). exists x. auto.
  - intros j t O. destruct (Nat.eq_dec j i') as [->|Hj]; [|rewrite owner_upd_other in O by exact Hj; exact (H3 _ _ O)].
    apply owner_upd_same in O. destruct O as [Ht Ha]. destruct (Nat.eq_dec t t0) as [->|Hn].
    + destruct B3 as [B3|B3]; [apply H3; exists x; rewrite <- Ha, B3; auto|lia].
    + rewrite HB in Ha by assumption. apply H3. exists x. auto.
Qed.
Lemma alone_step pol s p st i c A o s' r os : inv s p st -> each_once st (o :: os) -> alone s i c A -> (forall k', o <> AMux i k') -> astep pol s o = (s', r) -> alone s' i c A.
Proof.
  intros HI HO HK HV E. pose proof HI as (I1 & I2 & _ & I4 & I5).
  assert (PRE : forall i' x k' t, wd_mixes s i' = Some x -> (t < 3)%nat -> st k' = false ->
    (b_arr (bufof x t) < length (wd_mem s))%nat /\ view (wd_mem s) (wd_pkts s k') = view (wd_mem s) (wd_pkts s k') /\
    forall a, ap_media (wd_pkts s k') = Some a -> apart (wd_mem s, bufof x t) a).
  { intros i' x k' t HX Ht Hst. destruct (I4 k' Hst) as [V B].
    assert (O : owner (wd_mixes s) i' t (b_arr (bufof x t))) by (exists x; auto).
    split; [exact (I1 _ _ _ O)|]. split; [reflexivity|]. intros a Ha. destruct (B a Ha) as [L NO]. split; [exact L|]. intros E0. cbn [snd] in E0. rewrite <- E0 in O. exact (NO _ _ O). }
  assert (XE : forall i' x, wd_mixes s i' = Some x -> exists y, xeq (am_x x) y).
  { intros i' x HX. specialize (I5 i'). rewrite HX in I5. destruct (pw_mixes p i') as [[y w]|]; [|contradiction]. exists y. apply I5. }
  destruct o as [k' q|k' j|i' w|i' k'|i' md|i' k'|i' k'|i'|i' k' a b|i' w]; cbn [astep each_once] in *.
  - destruct (set_pkt_media (wd_mem s) q) as [m' ap] eqn:EP. injection E as <- <-.
    assert (EM : exists e, m' = wd_mem s ++ e) by (unfold set_pkt_media in EP; destruct (p_media q); injection EP as <- <-; [eexists; reflexivity|exists []; symmetry; apply app_nil_r]).
    destruct EM as [e ->]. destruct HK as (H1 & H2 & H3). unfold alone. cbn [wd_mem wd_mixes]. rewrite app_length, arr_app1 by exact H1. split; [lia|]. split; assumption.
  - injection E as <- <-. apply alone_same; auto.
  - unfold new_amix in E. injection E as <- <-. destruct HK as (H1 & H2 & H3). unfold alone. cbn [wd_mem wd_mixes]. rewrite app_length, arr_app1 by exact H1. split; [lia|]. split; [exact H2|].
    intros j t H. destruct (Nat.eq_dec j i') as [->|Hj]; [|rewrite owner_upd_other in H by exact Hj; apply H3, H].
    apply owner_upd_same in H. destruct H as [Ht Ha]. destruct t as [|[|[|t]]]; cbn [bufof am_media am_avc am_aac b_arr] in Ha; lia.
  - assert (HV1 : i' <> i) by (intros ->; exact (HV k' eq_refl)). destruct HO as [Hst _]. unfold on_packet, on_mix in E. destruct (wd_mixes s i') as [x|] eqn:EX; [|injection E as <- <-; exact HK].
    destruct (PRE i' x k' O EX ltac:(lia) Hst) as (P1 & P2 & P3). destruct (XE i' x EX) as [y HX].
    destruct (mux_sim pol x y (am_w x) (wd_pkts s k') _ (wd_mem s) eq_refl HX P1 P2 P3) as (x' & y' & p' & q' & m' & w' & r' & G1 & _ & B & B2 & B3 & _).
    rewrite G1 in E. injection E as <- <-. apply (alone_packet s i c A i' x x' _ m' O HK EX); try assumption; [lia|tauto|]. intros [|[|t]] Ht Ht3; cbn [bufof]; congruence.
  - unfold on_mix in E. destruct (wd_mixes s i') as [x|] eqn:EX; [|injection E as <- <-; exact HK]. cbn in E. injection E as <- <-. apply alone_same; [exact HK|]. apply (owner_same_bufs _ _ x); [exact EX|reflexivity].
  - destruct HO as [Hst _]. unfold on_packet, on_mix in E. destruct (wd_mixes s i') as [x|] eqn:EX; [|injection E as <- <-; exact HK].
    destruct (PRE i' x k' 1%nat EX ltac:(lia) Hst) as (P1 & P2 & P3). destruct (XE i' x EX) as [y HX]. unfold mix_save_avc_a in E. set (ty := types_is_video _) in E.
    destruct (save_sim pol (set_types ty (am_x x)) (set_types ty y) (wd_pkts s k') _ (wd_mem s, am_avc x) (xeq_types _ _ ty HX) P1 P2 P3) as (t' & y' & p' & q' & [m' b'] & r' & G1 & _ & B & _).
    rewrite G1 in E. injection E as <- <-. apply (alone_packet s i c A i' x (mkAM t' (am_w x) (am_media x) b' (am_aac x)) _ m' 1%nat HK EX); try assumption; [lia|lia|].
    intros [|[|t]] Ht Ht3; cbn [bufof am_media am_avc am_aac]; congruence.
  - destruct HO as [Hst _]. unfold on_packet, on_mix in E. destruct (wd_mixes s i') as [x|] eqn:EX; [|injection E as <- <-; exact HK].
    destruct (PRE i' x k' 2%nat EX ltac:(lia) Hst) as (P1 & P2 & P3). destruct (XE i' x EX) as [y HX]. unfold mix_save_aac_a in E. set (ty := types_is_audio _) in E.
    destruct (save_sim pol (set_types ty (am_x x)) (set_types ty y) (wd_pkts s k') _ (wd_mem s, am_aac x) (xeq_types _ _ ty HX) P1 P2 P3) as (t' & y' & p' & q' & [m' b'] & r' & G1 & _ & B & _).
    rewrite G1 in E. injection E as <- <-. apply (alone_packet s i c A i' x (mkAM t' (am_w x) (am_media x) (am_avc x) b') _ m' 2%nat HK EX); try assumption; [lia|lia|].
    intros [|[|[|t]]] Ht Ht3; cbn [bufof am_media am_avc am_aac]; congruence || lia.
  - unfold on_mix in E. destruct (wd_mixes s i') as [x|] eqn:EX; [|injection E as <- <-; exact HK]. destruct (mix_set_header _ _) as [t [w r']]. injection E as <- <-. apply alone_same; [exact HK|].
    apply (owner_same_bufs _ _ x); [exact EX|reflexivity].
  - unfold on_mix in E. destruct (wd_mixes s i') as [x|] eqn:EX; [|injection E as <- <-; exact HK]. destruct (mix_update _ _ _ _) as [t r']. injection E as <- <-. apply alone_same; [exact HK|].
    apply (owner_same_bufs _ _ x); [exact EX|reflexivity].
  - unfold on_mix in E. destruct (wd_mixes s i') as [x|] eqn:EX; [|injection E as <- <-; exact HK]. injection E as <- <-. apply alone_same; [exact HK|].
    apply (owner_same_bufs _ _ x); [exact EX|reflexivity].
Qed.
(** A packet's slice, and a mixer's cache, under calls that leave them. *)
Lemma slice_step pol s o s' r k : astep pol s o = (s', r) -> spares k o -> ap_media (wd_pkts s' k) = ap_media (wd_pkts s k).
Proof.
  assert (P : forall i' k' f s' r, on_packet s i' k' f = (s', r) -> k' <> k -> ap_media (wd_pkts s' k) = ap_media (wd_pkts s k)).
  { intros i' k' f s1 r1 E H. unfold on_packet, on_mix in E. destruct (wd_mixes s i'); [|injection E as <- <-; reflexivity].
    destruct (f _ _ _) as [[x' p'] [m' r']]. injection E as <- <-. cbn [wd_pkts]. rewrite upd_other by congruence. reflexivity. }
  destruct o as [k' q|k' j|i' w|i' k'|i' md|i' k'|i' k'|i'|i' k' a b|i' w]; cbn [astep spares]; intros E H; try (exact (P _ _ _ _ _ E H)).
  - destruct (set_pkt_media _ _) as [m' ap]. injection E as <- <-. cbn [wd_pkts]. rewrite upd_other by congruence. reflexivity.
  - injection E as <- <-. cbn [wd_pkts]. rewrite upd_other by congruence. reflexivity.
  - unfold new_amix in E. injection E as <- <-. reflexivity.
  - unfold on_mix in E. destruct (wd_mixes s i'); [cbn in E|]; injection E as <- <-; reflexivity.
  - unfold on_mix in E. destruct (wd_mixes s i'); [destruct (mix_set_header _ _) as [t [w r']]|]; injection E as <- <-; reflexivity.
  - unfold on_mix in E. destruct (wd_mixes s i'); [destruct (mix_update _ _ _ _) as [t r']|]; injection E as <- <-; reflexivity.
  - unfold on_mix in E. destruct (wd_mixes s i'); injection E as <- <-; reflexivity.
Qed.
Lemma cache_step pol s o s' r i x : astep pol s o = (s', r) -> (forall k', o <> AMux i k') -> (forall w, o <> ANewMix i w) -> wd_mixes s i = Some x ->
  exists x', wd_mixes s' i = Some x' /\ am_media x' = am_media x.
Proof.
  assert (U : forall i' (x1 : amix) mx, mx i = Some x -> (i' = i -> am_media x1 = am_media x) -> exists x', upd_nat mx i' (Some x1) i = Some x' /\ am_media x' = am_media x).
  { intros i' x1 mx HX HM. destruct (Nat.eq_dec i i') as [->|H]; [rewrite upd_same|rewrite upd_other by exact H]; eexists; (split; [reflexivity || exact HX|]); auto. }
  destruct o as [k' q|k' j|i' w|i' k'|i' md|i' k'|i' k'|i'|i' k' a b|i' w]; cbn [astep]; intros E H1 H2 HX.
  - destruct (set_pkt_media _ _) as [m' ap]. injection E as <- <-. exists x. auto.
  - injection E as <- <-. exists x. auto.
  - unfold new_amix in E. injection E as <- <-. apply U; [exact HX|]. intros ->. destruct (H2 w eq_refl).
  - unfold on_packet, on_mix in E. destruct (wd_mixes s i') as [y|] eqn:EY; [|injection E as <- <-; exists x; auto].
    destruct (mix_mux_a _ _ _ _) as [[x' p'] [m' r']]. injection E as <- <-. apply U; [exact HX|]. intros ->. destruct (H1 k' eq_refl).
  - unfold on_mix in E. destruct (wd_mixes s i') as [y|] eqn:EY; [cbn in E|]; injection E as <- <-; [|exists x; auto]. apply U; [exact HX|]. intros ->. cbn [set_x am_media]. congruence.
  - unfold on_packet, on_mix in E. destruct (wd_mixes s i') as [y|] eqn:EY; [|injection E as <- <-; exists x; auto]. unfold mix_save_avc_a in E.
    destruct (save_header_a _ _ _ _) as [[t' p'] [[m' b'] r']]. injection E as <- <-. apply U; [exact HX|]. intros ->. cbn [am_media]. congruence.
  - unfold on_packet, on_mix in E. destruct (wd_mixes s i') as [y|] eqn:EY; [|injection E as <- <-; exists x; auto]. unfold mix_save_aac_a in E.
    destruct (save_header_a _ _ _ _) as [[t' p'] [[m' b'] r']]. injection E as <- <-. apply U; [exact HX|]. intros ->. cbn [am_media]. congruence.
  - unfold on_mix in E. destruct (wd_mixes s i') as [y|] eqn:EY; [destruct (mix_set_header _ _) as [t [w r']]|]; injection E as <- <-; [|exists x; auto]. apply U; [exact HX|]. intros ->. cbn [set_x set_w am_media]. congruence.
  - unfold on_mix in E. destruct (wd_mixes s i') as [y|] eqn:EY; [destruct (mix_update _ _ _ _) as [t r']|]; injection E as <- <-; [|exists x; auto]. apply U; [exact HX|]. intros ->. cbn [set_x am_media]. congruence.
  - unfold on_mix in E. destruct (wd_mixes s i') as [y|] eqn:EY; injection E as <- <-; [|exists x; auto]. apply U; [exact HX|]. intros ->. cbn [set_w am_media]. congruence.
Qed.

(** * An array no mixer has keeps its bytes *)
Definition left_alone (s : world) (c : nat) (A : bytes) : Prop := forall i, alone s i c A.
Lemma left_owner s c A : (c < length (wd_mem s))%nat -> arr (wd_mem s) c = A -> (forall j t, ~ owner (wd_mixes s) j t c) -> left_alone s c A.
Proof. intros H1 H2 H3 i. split; [exact H1|]. split; [exact H2|]. intros j t O. destruct (H3 _ _ O). Qed.
Lemma left_step pol s p st c A o s' r os : inv s p st -> each_once st (o :: os) -> left_alone s c A -> astep pol s o = (s', r) -> left_alone s' c A.
Proof.
  intros HI HO HL E.
  assert (G : exists i, forall n, (i <= n)%nat -> forall k', o <> AMux n k').
  { destruct o as [k' q|k' j|i' w|i' k'|i' md|i' k'|i' k'|i'|i' k' a b|i' w]; try (exists O; intros; congruence). exists (S i'). intros n Hn k0 H. injection H as H _. lia. }
  destruct G as [i G]. pose proof (alone_step pol s p st i c A o s' r os HI HO (HL i) (G i ltac:(lia)) E) as (H1 & H2 & H3).
  pose proof (alone_step pol s p st (S i) c A o s' r os HI HO (HL (S i)) (G (S i) ltac:(lia)) E) as (_ & _ & H4).
  apply left_owner; [exact H1|exact H2|]. intros j t O. destruct (H3 _ _ O), (H4 _ _ O). lia.
Qed.
Lemma left_run pol c A a k os : forall s p st, inv s p st -> each_once st os -> left_alone s c A -> ap_media (wd_pkts s k) = Some a -> s_arr a = c -> Forall (spares k) os ->
  option_map (rd (wd_mem (fst (arun pol s os)))) (ap_media (wd_pkts (fst (arun pol s os)) k)) = Some (take A (s_len a)).
Proof.
  induction os as [|o os IH]; intros s p st HI HO HL HM EA HF.
  - cbn [arun fst]. rewrite HM. cbn [option_map]. unfold rd. rewrite EA. destruct (HL O) as (_ & -> & _). reflexivity.
  - inversion HF as [|? ? H1 H2]; subst. destruct (astep_sim pol s p st o os HI HO) as (s' & p' & st' & r & E & _ & HI' & HO').
    cbn [arun]. rewrite E. pose proof (left_step pol s p st _ A o s' r os HI HO HL E) as HL'. pose proof (slice_step pol s o s' r k E H1) as HS.
    specialize (IH s' p' st' HI' HO' HL' (eq_trans HS HM) eq_refl H2). destruct (arun pol s' os). exact IH.
Qed.

(** * The mixer's own Mux *)
Lemma mux_lays pol s p st i k k' x s' r os c A : inv s p st -> each_once st (AMux i k' :: os) -> k' <> k -> wd_mixes s i = Some x -> b_arr (am_media x) = c ->
  alone s i c A -> astep pol s (AMux i k') = (s', r) ->
  exists w x' y wr, pw_mixes p i = Some (y, wr) /\ w = w_out (fst (snd (codec_parse (x_codec y) (pw_pkts p k') buffer0))) /\
    wd_mixes s' i = Some x' /\ (c < length (wd_mem s'))%nat /\
    ((b_arr (am_media x') = c /\ len w <= len A /\ alone s' i c (w ++ drop A (len w))) \/
     (len A < len w /\ exists j, 0 <= j <= len A /\ left_alone s' c (take w j ++ drop A j))).
Proof.
  intros HI HO HK EX EB HA E. pose proof HI as (I1 & I2 & _ & I4 & I5). pose proof HO as [Hst _].
  destruct (astep_sim pol s p st _ os HI HO) as (s2 & p' & st' & r2 & E2 & _ & (J1 & J2 & _) & _). rewrite E in E2. injection E2 as <- <-.
  specialize (I5 i). rewrite EX in I5. destruct (pw_mixes p i) as [[y wr]|] eqn:EY; [|contradiction]. destruct I5 as [EW HX].
  destruct (I4 k' Hst) as [V AP0]. pose proof (owner_media s i x EX) as O.
  assert (AP : forall a, ap_media (wd_pkts s k') = Some a -> apart (wd_mem s, breset (am_media x)) a).
  { intros a Ha. destruct (AP0 a Ha) as [L NO]. split; [exact L|]. cbn [snd breset b_arr]. intros E0. rewrite <- E0 in O. exact (NO _ _ O). }
  pose proof (reset_holds (wd_mem s) (am_media x) (I1 _ _ _ O)) as RH.
  pose proof (codec_same pol (x_codec (am_x x)) (wd_pkts s k') (wd_mem s, breset (am_media x)) buffer0 (fun _ => eq_refl) RH AP) as (_ & _ & S3 & _).
  pose proof (codec_laid pol (x_codec (am_x x)) (wd_pkts s k') (wd_mem s, breset (am_media x))) as (BS & LD). destruct (LD [] RH) as (w & HW & CASES). cbn [app] in *. clear LD.
  cbn [fst] in S3. rewrite V in S3. replace (x_codec (am_x x)) with (x_codec y) in S3 by (symmetry; apply xeq_fields in HX; tauto).
  assert (WE : w = w_out (fst (snd (codec_parse (x_codec y) (pw_pkts p k') buffer0)))).
  { replace (x_codec (am_x x)) with (x_codec y) in HW by (symmetry; apply xeq_fields in HX; tauto). destruct HW as (_ & W1 & _), S3 as (_ & W2 & _). congruence. }
  cbn [astep] in E. unfold on_packet, on_mix in E. rewrite EX in E. unfold mix_mux_a, mix_parse_a in E. cbn [fst snd] in E.
  destruct (codec_parse_a _ _ _ _) as [cd [[m' b'] rr]]. cbn [fst snd breset b_arr] in *.
  assert (NEXT : wd_mem s' = m' /\ exists x', wd_mixes s' = upd_nat (wd_mixes s) i (Some x') /\ am_media x' = b' /\ am_avc x' = am_avc x /\ am_aac x' = am_aac x).
  { destruct rr as [u|e| |].
    - rewrite ts_mux_ext in E. destruct (ts_mux _ _ _ _ _) as [k2 [w2 r3]]. injection E as <- <-. split; [reflexivity|]. eexists. repeat split.
    - injection E as <- <-. split; [reflexivity|]. eexists. repeat split.
    - injection E as <- <-. split; [reflexivity|]. eexists. repeat split.
    - injection E as <- <-. split; [reflexivity|]. eexists. repeat split. }
  destruct NEXT as (EM & x' & EX' & EB' & EV1 & EV2). destruct HA as (A1 & A2 & A3). rewrite EB in *. rewrite A2 in CASES.
  assert (EXI : wd_mixes s' i = Some x') by (rewrite EX', upd_same; reflexivity).
  assert (LM : (length (wd_mem s) <= length m')%nat) by apply BS.
  exists w, x', y, wr. split; [reflexivity|]. split; [exact WE|]. split; [exact EXI|]. rewrite EM. split; [lia|]. rewrite EB'.
  destruct CASES as [(C1 & C2 & C3)|(C1 & C2 & j & C3 & C4)].
  - left. split; [exact C1|]. split; [exact C2|]. split; [rewrite EM; lia|]. split; [rewrite EM; exact C3|].
    intros j t Oj. pose proof (owner_media s' i x' EXI) as Oi. rewrite EB', C1 in Oi. destruct (J2 _ _ _ _ _ Oi Oj). auto.
  - right. split; [exact C2|]. exists j. change (len (@nil Z)) with 0 in C3. split; [exact C3|]. apply left_owner; [rewrite EM; lia|rewrite EM; exact C4|].
    intros j' t Oj. pose proof (owner_media s' i x' EXI) as Oi. destruct (Nat.eq_dec j' i) as [->|Hj].
    + destruct Oj as (x2 & X2 & T2 & B2). rewrite EXI in X2. injection X2 as <-. destruct t as [|t].
      * cbn [bufof] in B2. rewrite EB' in B2. lia.
      * destruct (A3 i (S t)) as [_ Z0]; [|discriminate]. exists x. split; [exact EX|]. split; [exact T2|]. rewrite <- B2. destruct t as [|t]; cbn [bufof]; congruence.
    + rewrite EX', owner_upd_other in Oj by exact Hj. destruct (A3 _ _ Oj). congruence.
Qed.

(** * Through a run *)
Lemma shown_run pol i k a os : forall s p st x A, inv s p st -> each_once st os -> wd_mixes s i = Some x -> ap_media (wd_pkts s k) = Some a -> s_arr a = b_arr (am_media x) ->
  0 <= s_len a <= len A -> alone s i (s_arr a) A -> Forall (spares k) os ->
  exists e, option_map (rd (wd_mem (fst (arun pol s os)))) (ap_media (wd_pkts (fst (arun pol s os)) k)) = Some e /\
    shown (len A) (take A (s_len a)) (puts i p os) e.
Proof.
  induction os as [|o os IH]; intros s p st x A HI HO HX HM EA HL HA HF.
  - cbn [arun fst puts]. rewrite HM. cbn [option_map]. eexists. split; [reflexivity|]. unfold rd. destruct HA as (_ & -> & _). apply shown_end.
  - inversion HF as [|? ? H1 H2]; subst. destruct (astep_sim pol s p st o os HI HO) as (s' & p' & st' & r & E & EP & HI' & HO').
    pose proof (slice_step pol s o s' r k E H1) as HS. rewrite HM in HS. cbn [arun]. rewrite E.
    assert (OTHER : (forall k', o <> AMux i k') -> (forall w, o <> ANewMix i w) ->
      exists e, option_map (rd (wd_mem (fst (let '(s2, rs) := arun pol s' os in (s2, r :: rs))))) (ap_media (wd_pkts (fst (let '(s2, rs) := arun pol s' os in (s2, r :: rs))) k)) = Some e /\
        shown (len A) (take A (s_len a)) (puts i p' os) e).
    { intros N1 N2. destruct (cache_step pol s o s' r i x E N1 N2 HX) as (x' & HX' & EB). pose proof (alone_step pol s p st i _ A o s' r os HI HO HA N1 E) as HA'.
      destruct (IH s' p' st' x' A HI' HO' HX' HS ltac:(congruence) HL HA' H2) as (e & E1 & E2). exists e. destruct (arun pol s' os). split; assumption. }
    cbn [puts]. rewrite EP. cbn [fst].
    destruct o as [k' q|k' j|i' w|i' k'|i' md|i' k'|i' k'|i'|i' k' u v|i' w]; try (apply OTHER; intros; congruence).
    + destruct (Nat.eqb_spec i' i) as [->|Hi]; [|apply OTHER; intros; congruence]. clear OTHER.
      assert (HL' : left_alone s' (s_arr a) A).
      { pose proof (alone_step pol s p st i _ A _ s' r os HI HO HA ltac:(intros; congruence) E) as (A1 & A2 & A3). apply left_owner; [exact A1|exact A2|].
        intros j t O. destruct (A3 _ _ O) as [-> ->]. cbn [astep] in E. unfold new_amix in E. injection E as <- <-. cbn [wd_mixes] in O. apply owner_upd_same in O. destruct O as [_ O].
        cbn [bufof am_media b_arr] in O. destruct HA as (B1 & _). lia. }
      eexists. split; [|apply shown_end]. pose proof (left_run pol _ A a k os s' p' st' HI' HO' HL' HS eq_refl H2) as Q. destruct (arun pol s' os). exact Q.
    + destruct (Nat.eqb_spec i' i) as [->|Hi]; [|apply OTHER; intros; congruence]. clear OTHER. cbn [spares] in H1.
      destruct (mux_lays pol s p st i k k' x s' r os _ A HI HO H1 HX eq_refl ltac:(rewrite <- EA; exact HA) E) as (w & x' & y & wr & EY & EW & HX' & LC & CASES).
      rewrite EY, <- EW. cbn [app]. rewrite <- EA in CASES. destruct CASES as [(C1 & C2 & C3)|(C1 & j & C2 & C3)].
      * assert (LA : len (w ++ drop A (len w)) = len A) by (rewrite len_app; pose proof (len_nonneg w); unfold drop, len in *; rewrite skipn_length; lia).
        destruct (IH s' p' st' x' _ HI' HO' HX' HS ltac:(congruence) ltac:(rewrite LA; exact HL) C3 H2) as (e & E1 & E2). rewrite LA, take_over in E2 by assumption.
        exists e. split; [|apply shown_fits; assumption]. destruct (arun pol s' os). exact E1.
      * eexists. split; [|apply (shown_left (len A) _ w _ j); [exact C1|exact C2]].
        pose proof (left_run pol _ _ a k os s' p' st' HI' HO' C3 HS eq_refl H2) as Q.
        assert (LJ : len (take w j) = j) by (apply len_take; lia). rewrite <- LJ in Q at 2. rewrite take_over in Q by (rewrite ?LJ; lia). destruct (arun pol s' os). exact Q.
Qed.
