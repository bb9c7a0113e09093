From Verif Require Import Base.Go Base.GoFacts Base.IO Model.AmfTypes Model.Packet Model.Parsers Model.Ts Model.TsAlias Spec.TsAlias
  Proofs.Parsers Proofs.TsPackets Proofs.TsMore.

(** * Memory *)
Lemma len_put m a s : length (put_arr m a s) = length m.
Proof. revert a. induction m as [|x m IH]; intros [|a]; cbn [put_arr length]; rewrite ?IH; reflexivity. Qed.
Lemma arr_put_same m a s : (a < length m)%nat -> arr (put_arr m a s) a = s.
Proof. revert a. induction m as [|x m IH]; intros [|a] H; cbn [length] in H; try lia; [reflexivity|]. apply (IH a). lia. Qed.
Lemma arr_put_other m a c s : c <> a -> arr (put_arr m a s) c = arr m c.
Proof. revert a c. induction m as [|x m IH]; intros [|a] [|c] H; try reflexivity; try congruence. apply (IH a c). congruence. Qed.
Lemma arr_app1 m m' c : (c < length m)%nat -> arr (m ++ m') c = arr m c.
Proof. intros H. unfold arr. apply app_nth1, H. Qed.
Lemma arr_last m s : arr (m ++ [s]) (length m) = s.
Proof. unfold arr. rewrite app_nth2, Nat.sub_diag by lia. reflexivity. Qed.

(** The buffer's array exists and the buffer shows [d]. *)
Definition holds (s : mem * buf) (d : bytes) : Prop :=
  (b_arr (snd s) < length (fst s))%nat /\ take (arr (fst s) (b_arr (snd s))) (b_len (snd s)) = d /\ b_len (snd s) = len d.
(** What writing through a buffer can do to memory. *)
Definition bstep (s s' : mem * buf) : Prop :=
  (length (fst s) <= length (fst s'))%nat /\ (b_arr (snd s) < length (fst s) -> b_arr (snd s') < length (fst s'))%nat /\
  (b_arr (snd s') = b_arr (snd s) \/ (length (fst s) <= b_arr (snd s'))%nat) /\
  (forall c, (c < length (fst s))%nat -> c <> b_arr (snd s) -> arr (fst s') c = arr (fst s) c) /\
  (forall c, (c < length (fst s))%nat -> len (arr (fst s) c) <= len (arr (fst s') c)).
Lemma bstep_refl s : bstep s s.
Proof. unfold bstep. repeat split; auto; intros; lia. Qed.
Lemma bstep_trans a b c : bstep a b -> bstep b c -> bstep a c.
Proof.
  intros (H1 & H2 & H3 & H4 & H5) (K1 & K2 & K3 & K4 & K5). unfold bstep. split; [lia|]. split; [tauto|]. split.
  { destruct K3 as [K3|K3]; [rewrite K3; exact H3|right; lia]. }
  split.
  - intros d Hd Hn. rewrite K4; [apply H4; assumption|lia|]. destruct H3 as [H3|H3]; [congruence|lia].
  - intros d Hd. specialize (H5 d Hd). specialize (K5 d ltac:(lia)). lia.
Qed.
Lemma bstep_reset m b : bstep (m, b) (m, breset b).
Proof. exact (bstep_refl (m, b)). Qed.
Lemma bput_step pol d s : bstep s (bput pol d s).
Proof.
  destruct s as [m b]. unfold bput. set (a := arr m (b_arr b)). destruct (Z.leb_spec (b_len b + len d) (len a)) as [H|H]; unfold bstep; cbn [fst snd b_arr].
  - rewrite len_put. split; [lia|]. split; [lia|]. split; [left; reflexivity|]. split; [intros c _ Hc; apply arr_put_other, Hc|].
    intros c Hc. destruct (Nat.eq_dec c (b_arr b)) as [->|Hn]; [|rewrite arr_put_other by exact Hn; lia].
    rewrite arr_put_same by exact Hc. fold a. rewrite !len_app. unfold take, drop, len in *. rewrite firstn_length, skipn_length. lia.
  - rewrite app_length. split; [lia|]. split; [cbn [length]; lia|]. split; [right; lia|].
    split; intros c Hc; [intros _|]; rewrite arr_app1 by exact Hc; [reflexivity|lia].
Qed.
Lemma take_app_len (a b : bytes) n : n = len a -> take (a ++ b) n = a.
Proof. intros ->. unfold take, len. rewrite Nat2Z.id, firstn_app, Nat.sub_diag, firstn_all. cbn [firstn]. apply app_nil_r. Qed.
Lemma bput_holds pol d0 d s : holds s d0 -> holds (bput pol d s) (d0 ++ d).
Proof.
  destruct s as [m b]. intros (H1 & H2 & H3). cbn [fst snd] in *. unfold bput. destruct (b_len b + len d <=? len (arr m (b_arr b))); unfold holds; cbn [fst snd b_arr b_len].
  - rewrite len_put, arr_put_same by exact H1. split; [exact H1|]. rewrite H2, app_assoc, take_app_len by (rewrite len_app; lia). split; [reflexivity|]. rewrite len_app. lia.
  - rewrite app_length, arr_last. cbn [length]. split; [lia|]. rewrite H2, app_assoc, take_app_len by (rewrite len_app; lia). split; [reflexivity|]. rewrite len_app. lia.
Qed.
(** A slice lying in memory, outside the buffer's array. *)
Definition apart (s : mem * buf) (a : sl) : Prop := (s_arr a < length (fst s))%nat /\ s_arr a <> b_arr (snd s).
Lemma apart_step s s' a : apart s a -> bstep s s' -> apart s' a /\ rd (fst s') a = rd (fst s) a.
Proof.
  intros (H1 & H2) (K1 & _ & K3 & K4 & _). split; [split; [lia|destruct K3 as [K|K]; [congruence|lia]]|]. unfold rd. rewrite K4 by assumption. reflexivity.
Qed.

(** * Parsing apart from the source is parsing into a buffer *)
Definition same_parse {A} (s : mem * buf) (x : A * (mem * buf * res unit)) (y : A * (writer * res unit)) : Prop :=
  fst x = fst y /\ snd (snd x) = snd (snd y) /\ holds (fst (snd x)) (w_out (fst (snd y))) /\ bstep s (fst (snd x)) /\ never_fails (fst (snd y)).
Lemma write_never d w : never_fails w -> write d w = (mkW (w_out w ++ d) (S (w_calls w)) (w_script w), Ok tt).
Proof. intros H. unfold write. rewrite H. reflexivity. Qed.
Lemma mk_same {A} s (x : A * (mem * buf * res unit)) y : fst x = fst y -> snd (snd x) = snd (snd y) -> holds (fst (snd x)) (w_out (fst (snd y))) ->
  bstep s (fst (snd x)) -> never_fails (fst (snd y)) -> same_parse s x y.
Proof. intros. unfold same_parse. tauto. Qed.
Lemma same_stop {A} (a : A) s w r : never_fails w -> holds s (w_out w) -> same_parse s (a, (s, r)) (a, (w, r)).
Proof. intros H1 H2. apply mk_same; [reflexivity|reflexivity|exact H2|apply bstep_refl|exact H1]. Qed.

Lemma aac_same pol p src ty s w : never_fails w -> holds s (w_out w) -> apart s src ->
  same_parse s (aac_parse_a pol p src ty s) (aac_parse p (rd (fst s) src) ty w).
Proof.
  intros HN HH HA. unfold aac_parse_a, aac_parse. destruct (len (rd (fst s) src) =? 0) eqn:E0; [apply same_stop; assumption|].
  destruct (ty =? 0); [destruct specific_info; apply same_stop; assumption|]. destruct (ty =? 1); [|apply same_stop; assumption].
  unfold add_adts. rewrite E0. cbn [orb]. destruct (negb (ac_got p)); [apply same_stop; assumption|].
  unfold wbind. rewrite write_never by exact HN. rewrite write_never by exact HN. cbn [w_out].
  set (s1 := bput pol _ s). pose proof (bput_step pol (adts_header p (len (rd (fst s) src))) s) as S1. fold s1 in S1.
  destruct (apart_step _ _ _ HA S1) as [_ ->]. apply mk_same; cbn [fst snd w_out]; [reflexivity|reflexivity| | |exact HN].
  - apply bput_holds, bput_holds, HH.
  - apply (bstep_trans _ _ _ S1 (bput_step _ _ _)).
Qed.
Lemma annexb_same pol fuel src info : forall index size has wrote sp s w, never_fails w -> holds s (w_out w) -> apart s src ->
  same_parse s (annexb_loop_a pol fuel src info index size has wrote sp s) (annexb_loop fuel (rd (fst s) src) info index size has wrote sp w).
Proof.
  induction fuel as [|fuel IH]; intros index size has wrote sp s w HN HH HA; cbn [annexb_loop_a annexb_loop];
    (destruct (size <=? 0); [apply same_stop; assumption|]); [apply same_stop; assumption|].
  set (cur := rd (fst s) src).
  destruct (let* t := go_slice cur index (len cur) in nalu_size t) as [n|e| |]; try (apply same_stop; assumption).
  destruct (n <=? 0); [apply same_stop; assumption|]. destruct (size - 4 <? n); [apply same_stop; assumption|].
  destruct (go_at cur (index + 4)) as [b0|e| |]; try (apply same_stop; assumption).
  destruct (go_slice cur (index + 4) (index + 4 + n)) as [nal|e| |] eqn:EN; try (apply same_stop; assumption).
  assert (ES : nal = slice cur (index + 4) (index + 4 + n)) by (unfold go_slice in EN; destruct (_ && _); congruence).
  destruct (Z.land b0 31 =? 9); [apply IH; assumption|].
  destruct ((Z.land b0 31 =? 5) || (Z.land b0 31 =? 1) || (Z.land b0 31 =? 6)).
  2:{ destruct ((Z.land b0 31 =? 7) || (Z.land b0 31 =? 8)); [apply IH; assumption|apply same_stop; assumption]. }
  set (s1 := if (Z.land b0 31 =? 5) && negb wrote then bput pol (if has then sp else info) s else s).
  assert (H1 : exists w1, (if (Z.land b0 31 =? 5) && negb wrote return Wm unit then write (if has then sp else info) else wret tt) w = (w1, Ok tt) /\
    never_fails w1 /\ holds s1 (w_out w1) /\ bstep s s1).
  { unfold s1. destruct ((Z.land b0 31 =? 5) && negb wrote).
    - rewrite write_never by exact HN. eexists; split; [reflexivity|]. split; [exact HN|]. split; [apply bput_holds, HH|apply bput_step].
    - exists w. split; [reflexivity|]. split; [exact HN|]. split; [exact HH|apply bstep_refl]. }
  destruct H1 as (w1 & E1 & HN1 & HH1 & S1). unfold wbind. rewrite E1. rewrite write_never by exact HN1. rewrite write_never by exact HN1.
  set (s2 := bput pol start_code s1). assert (S2 : bstep s s2) by (apply (bstep_trans _ _ _ S1), bput_step).
  set (s3 := bput pol _ s2). assert (S3 : bstep s s3) by (apply (bstep_trans _ _ _ S2), bput_step).
  destruct (apart_step _ _ _ HA S2) as [_ R2]. destruct (apart_step _ _ _ HA S3) as [HA3 R3].
  set (w3 := mkW (w_out (mkW (w_out w1 ++ start_code) _ _) ++ nal) _ _).
  assert (HH3 : holds s3 (w_out w3)).
  { unfold w3, s3. cbn [w_out]. rewrite R2. fold cur. rewrite <- ES. apply bput_holds, bput_holds, HH1. }
  specialize (IH (index + 4 + n) (size - 4 - n) has ((Z.land b0 31 =? 5) || wrote) sp s3 w3 HN1 HH3 HA3).
  rewrite R3 in IH. fold cur in IH. destruct IH as (I1 & I2 & I3 & I4 & I5).
  apply mk_same; try assumption. apply (bstep_trans _ _ _ S3 I4).
Qed.
Lemma get_annexb_same pol p src s w : never_fails w -> holds s (w_out w) -> apart s src ->
  same_parse s (get_annexb_a pol p src s) (get_annexb p (rd (fst s) src) w).
Proof.
  intros HN HH HA. unfold get_annexb_a, get_annexb. set (cur := rd (fst s) src). destruct (len cur <? 4); [apply same_stop; assumption|].
  rewrite write_never by exact HN. set (s1 := bput pol nalu_aud s). set (w1 := mkW _ _ _).
  assert (S1 : bstep s s1) by apply bput_step. destruct (apart_step _ _ _ HA S1) as [HA1 R1].
  pose proof (annexb_same pol (length cur) src (h_info p) 0 (len cur) false false [] s1 w1 HN (bput_holds pol (w_out w) nalu_aud s HH) HA1) as H.
  rewrite R1 in H. fold cur in H. unfold len at 1. rewrite Nat2Z.id.
  destruct (annexb_loop_a _ _ _ _ _ _ _ _ _ _) as [sp sr], (annexb_loop _ _ _ _ _ _ _ _ _) as [sp' wr]. destruct H as (H1 & H2 & H3 & H4 & H5).
  cbn [fst snd] in *. subst sp'. apply mk_same; try assumption; [reflexivity|]. apply (bstep_trans _ _ _ S1 H4).
Qed.
Lemma h264_same pol p src seq s w : never_fails w -> holds s (w_out w) -> apart s src ->
  same_parse s (h264_parse_a pol p src seq s) (h264_parse p (rd (fst s) src) seq w).
Proof.
  intros HN HH HA. unfold h264_parse_a, h264_parse. destruct (len (rd (fst s) src) =? 0); [apply same_stop; assumption|].
  destruct seq; [destruct parse_specific_info; apply same_stop; assumption|]. destruct (is_start _).
  - rewrite write_never by exact HN. apply mk_same; [reflexivity|reflexivity|apply bput_holds, HH|apply bput_step|exact HN].
  - apply get_annexb_same; assumption.
Qed.
Lemma codec_same pol c p s w : never_fails w -> holds s (w_out w) -> (forall a, ap_media p = Some a -> apart s a) ->
  same_parse s (codec_parse_a pol c p s) (codec_parse c (view (fst s) p) w).
Proof.
  intros HN HH HA. unfold codec_parse_a, codec_parse, view, video_of, audio_of. cbn [p_header p_media p_type].
  destruct (p_header (ap_pkt p)) as [h|]; [|destruct (ap_media p); apply same_stop; assumption].
  destruct (ap_media p) as [a|]; [|apply same_stop; assumption]. specialize (HA a eq_refl). cbn [option_map].
  destruct (p_type (ap_pkt p) =? PktVideo).
  - destruct (h_video h) as [vh|]; [|apply same_stop; assumption]. destruct (v_avc vh); [|apply same_stop; assumption].
    pose proof (h264_same pol (or_new (cp_h264 c) new_h264) a (v_seq vh) s w HN HH HA) as H.
    destruct (h264_parse_a _ _ _ _ _) as [x sr], (h264_parse _ _ _ _) as [y wr]. destruct H as (H1 & H2 & H3 & H4 & H5). cbn [fst snd] in *. subst y.
    apply mk_same; try assumption. reflexivity.
  - destruct (p_type (ap_pkt p) =? PktAudio); [|apply same_stop; assumption].
    destruct (h_audio h) as [ah|]; [|apply same_stop; assumption]. destruct (a_aac ah).
    + pose proof (aac_same pol (or_new (cp_aac c) new_aac) a (a_aactype ah) s w HN HH HA) as H.
      destruct (aac_parse_a _ _ _ _ _) as [x sr], (aac_parse _ _ _ _) as [y wr]. destruct H as (H1 & H2 & H3 & H4 & H5). cbn [fst snd] in *. subst y.
      apply mk_same; try assumption. reflexivity.
    + destruct (a_mp3 ah); [|apply same_stop; assumption]. destruct (mp3_parse _ _). apply same_stop; assumption.
Qed.

(** * Muxing *)
(** Equal but for the scratch packet, which the next packet overwrites. *)
Definition mueq (k1 k2 : tsmux) : Prop := set_pkt (tm_pkt k1) k2 = k1.
Lemma mueq_refl k : mueq k k. Proof. destruct k; reflexivity. Qed.
Lemma mueq_fields k1 k2 : mueq k1 k2 <-> tm_vcc k1 = tm_vcc k2 /\ tm_acc k1 = tm_acc k2 /\ tm_patcc k1 = tm_patcc k2 /\ tm_pmtcc k1 = tm_pmtcc k2 /\
  tm_sdt k1 = tm_sdt k2 /\ tm_pat k1 = tm_pat k2 /\ tm_pmt k1 = tm_pmt k2.
Proof.
  unfold mueq. destruct k1, k2. unfold set_pkt. cbn. split; [intros H; injection H; intros; subst; tauto|].
  intros (-> & -> & -> & -> & -> & -> & ->). reflexivity.
Qed.

(** To a writer of the caller's, the alias-aware loop is the plain one. *)
Lemma mux_loop_ext pol fuel : forall k ty tsh pesh media dts key l m w,
  mux_loop_a pol fuel k ty tsh pesh media dts key l (m, SExt w) =
  let '(k', (w', r)) := mux_loop fuel k ty tsh pesh (match media with Some a => rd m a | None => [] end) dts key l w in (k', (m, SExt w', r)).
Proof.
  induction fuel as [|fuel IH]; intros k ty tsh pesh media dts key l m w; cbn [mux_loop_a mux_loop]; (destruct (0 <? l_total l); [|reflexivity]); [reflexivity|].
  destruct (next_cc k ty) as [k1 cc]. cbn [fst]. destruct (build_packet _ _ _ _ _ _ _ _) as [[pkt l']|e| |]; try reflexivity.
  unfold sink_write. cbn [fst snd]. destruct (write pkt w) as [w' [u|e| |]]; try reflexivity. apply IH.
Qed.
Lemma ts_mux_ext pol k p dts pts m w :
  ts_mux_a pol k p dts pts (m, SExt w) = let '(k', (w', r)) := ts_mux k (view m p) dts pts w in (k', (m, SExt w', r)).
Proof.
  unfold ts_mux_a, ts_mux, media_of, view, video_of. cbn [p_type p_media p_header fst].
  assert (E : match option_map (rd m) (ap_media p) with Some b => b | None => [] end = match ap_media p with Some a => rd m a | None => [] end) by (destruct (ap_media p); reflexivity).
  rewrite E. destruct (p_type (ap_pkt p) =? PktVideo).
  - destruct (match p_header (ap_pkt p) with Some h => h_video h | None => None end) as [vh|]; [|reflexivity].
    destruct (generate_pes_header _ _ _ _) as [pesh hl]. apply mux_loop_ext.
  - destruct (p_type (ap_pkt p) =? PktAudio); [|reflexivity]. destruct (generate_pes_header _ _ _ _) as [pesh hl]. apply mux_loop_ext.
Qed.

(** The scratch packet does not show. *)
Lemma cc_of_eq ty k1 k2 : mueq k1 k2 -> cc_of ty k1 = cc_of ty k2.
Proof. intros H. apply mueq_fields in H. unfold cc_of. destruct (ty =? PktVideo); tauto. Qed.
Lemma next_cc_eq ty k1 k2 : mueq k1 k2 -> mueq (fst (next_cc k1 ty)) (fst (next_cc k2 ty)) /\ snd (next_cc k1 ty) = snd (next_cc k2 ty).
Proof.
  intros H. apply mueq_fields in H. destruct H as (H1 & H2 & H3 & H4 & H5 & H6 & H7). unfold next_cc.
  destruct (ty =? PktVideo); cbn [fst snd]; (split; [apply mueq_fields; unfold set_vcc, set_acc; cbn; intuition congruence|congruence]).
Qed.
Lemma mueq_set k1 k2 p1 p2 : mueq k1 k2 -> mueq (set_pkt p1 k1) (set_pkt p2 k2).
Proof. intros H. apply mueq_fields in H. apply mueq_fields. exact H. Qed.
Lemma tm_ok_set k p : tm_ok k -> len p = 188 -> tm_ok (set_pkt p k).
Proof. intros (A1 & A2 & A3 & A4 & A5 & A6 & A7 & A8) H. repeat split; cbn; try assumption; lia. Qed.

(** Into a cache the alias-aware loop may write other bytes, but ends in the same way. *)
Definition rdo (m : mem) (o : option sl) : bytes := match o with Some a => rd m a | None => [] end.
Definition fits (m : mem) (o : option sl) : Prop := match o with Some a => (s_arr a < length m)%nat /\ 0 <= s_len a <= len (arr m (s_arr a)) | None => True end.
Lemma rd_len m a : 0 <= s_len a <= len (arr m (s_arr a)) -> len (rd m a) = s_len a.
Proof. intros H. unfold rd, take, len in *. rewrite firstn_length. lia. Qed.
Lemma fits_step s s' o : fits (fst s) o -> bstep s s' -> fits (fst s') o /\ len (rdo (fst s') o) = len (rdo (fst s) o).
Proof.
  intros H (K1 & K2 & K3 & K4 & K5). destruct o as [a|]; [|split; [exact I|reflexivity]]. cbn [fits rdo] in *. destruct H as [H1 H2]. specialize (K5 _ H1).
  split; [split; lia|]. rewrite !rd_len by lia. reflexivity.
Qed.
Lemma mux_loop_buf pol fuel : forall k1 k2 ty hi lo pesh media md dts key l1 l2 m b w,
  tm_ok k1 -> tm_ok k2 -> mueq k1 k2 -> never_fails w -> fits m media -> len (rdo m media) = len md ->
  linv pesh (rdo m media) l1 -> linv pesh md l2 -> l_total l1 = l_total l2 -> l_first l1 = l_first l2 ->
  exists k1' k2' m' b' w' r,
    mux_loop_a pol fuel k1 ty [0x47; hi; lo; 0x10] pesh media dts key l1 (m, SBuf b) = (k1', (m', SBuf b', r)) /\
    mux_loop fuel k2 ty [0x47; hi; lo; 0x10] pesh md dts key l2 w = (k2', (w', r)) /\
    tm_ok k1' /\ tm_ok k2' /\ mueq k1' k2' /\ bstep (m, b) (m', b').
Proof.
  induction fuel as [|fuel IH]; intros k1 k2 ty hi lo pesh media md dts key l1 l2 m b w K1 K2 KE HN HF HL L1 L2 ET EF; cbn [mux_loop_a mux_loop]; rewrite ET.
  - destruct (0 <? l_total l2); do 6 eexists; (split; [reflexivity|]); (split; [reflexivity|]); repeat (split; [assumption|]); apply bstep_refl.
  - destruct (Z.ltb_spec 0 (l_total l2)) as [HT|HT].
    2:{ do 6 eexists; (split; [reflexivity|]); (split; [reflexivity|]); repeat (split; [assumption|]); apply bstep_refl. }
    pose proof (next_cc_ok k1 ty K1) as N1. pose proof (next_cc_ok k2 ty K2) as N2. pose proof (next_cc_eq ty k1 k2 KE) as NE.
    destruct (next_cc k1 ty) as [j1 c1], (next_cc k2 ty) as [j2 c2]. cbn [fst snd] in NE. destruct NE as [NE EC]. subst c2.
    destruct N1 as (EC1 & _ & O1 & _). destruct N2 as (_ & _ & O2 & _). assert (Hc : 0 <= c1 < 16) by lia. cbn [fst].
    assert (P1 : len (tm_pkt j1) = 188) by apply O1. assert (P2 : len (tm_pkt j2) = 188) by apply O2.
    change (match media with Some a => rd m a | None => [] end) with (rdo m media).
    assert (HD : (l_first l1 && key = true /\ 176 <= l_total l2 <= 183) \/ (l_first l1 && key = true -> ~ 176 <= l_total l2 <= 183)).
    { destruct (l_first l1 && key); [|right; discriminate]. destruct (Z_le_dec 176 (l_total l2)), (Z_le_dec (l_total l2) 183); [left; split; [reflexivity|lia]|right..]; lia. }
    destruct HD as [[HK HR]|HD].
    { apply andb_prop in HK. destruct HK as [HK1 HK2]. subst key. rewrite !build_packet_panic; try assumption; try lia; try congruence.
      do 6 eexists; (split; [reflexivity|]); (split; [reflexivity|]); repeat (split; [assumption|]); apply bstep_refl. }
    destruct (build_packet_ok (tm_pkt j1) hi lo pesh (rdo m media) c1 dts key l1 P1 Hc L1) as (n1 & B1 & I1 & Q1 & F1); [lia|rewrite ET; exact HD|].
    destruct (build_packet_ok (tm_pkt j2) hi lo pesh md c1 dts key l2 P2 Hc L2) as (n2 & B2 & I2 & Q2 & F2); [lia|rewrite <- EF; exact HD|].
    rewrite B1, B2. unfold sink_write. cbn [fst snd]. rewrite write_never by exact HN.
    set (pk1 := raw_packet _ _ _ _ _ _ (pending pesh (rdo m media) l1)). set (pk2 := raw_packet _ _ _ _ _ _ (pending pesh md l2)).
    pose proof (bput_step pol pk1 (m, b)) as S1. destruct (bput pol pk1 (m, b)) as [m1 b1].
    pose proof (pending_len _ _ _ L1) as PL1. pose proof (pending_len _ _ _ L2) as PL2.
    assert (LP1 : len pk1 = 188) by (apply len_raw_packet; [lia|intros Hk; rewrite PL1, ET; apply HD, Hk]).
    assert (LP2 : len pk2 = 188) by (apply len_raw_packet; [lia|intros Hk; rewrite PL2; apply HD; rewrite EF; exact Hk]).
    destruct (fits_step (m, b) (m1, b1) media HF S1) as [HF1 HL1]. cbn [fst] in HF1, HL1.
    destruct (IH (set_pkt pk1 j1) (set_pkt pk2 j2) ty hi lo pesh media md dts key (mkL (l_total n1) (l_hdr n1) (l_head n1) (l_data n1) false)
      (mkL (l_total n2) (l_hdr n2) (l_head n2) (l_data n2) false) m1 b1 (mkW (w_out w ++ pk2) (S (w_calls w)) (w_script w)))
      as (k1' & k2' & m' & b' & w' & r & E1 & E2 & G1 & G2 & G3 & G4).
    + apply tm_ok_set; assumption.
    + apply tm_ok_set; assumption.
    + apply mueq_set, NE.
    + exact HN.
    + exact HF1.
    + lia.
    + unfold linv in I1 |- *. cbn [l_total l_hdr l_head l_data]. rewrite HL1. exact I1.
    + exact I2.
    + cbn [l_total]. pose proof (pending_len _ _ _ I1) as A1. pose proof (pending_len _ _ _ I2) as A2. rewrite <- A1, <- A2, Q1, Q2, EF.
      unfold drop, len in *. rewrite !skipn_length. lia.
    + reflexivity.
    + exists k1', k2', m', b', w', r. split; [exact E1|]. split; [exact E2|]. repeat (split; [assumption|]). apply (bstep_trans _ _ _ S1 G4).
Qed.
Lemma linv_start pesh media hl : 0 <= hl <= 19 -> len pesh = 19 -> linv pesh media (mkL (len media + hl) hl 0 0 true).
Proof. intros H1 H2. pose proof (len_nonneg media). unfold linv. cbn. lia. Qed.
Lemma pes_header_facts ty n pts dts : ty = PktVideo \/ ty = PktAudio ->
  let '(pesh, hl) := generate_pes_header ty n pts dts in len pesh = 19 /\ 0 <= hl <= 19.
Proof.
  intros HT. rewrite generate_pes_ok by exact HT. cbv zeta. split.
  - rewrite !len_app. destruct (both_stamps _ _ _); reflexivity.
  - unfold pes_head_len. destruct both_stamps; lia.
Qed.
Lemma ts_mux_buf pol k1 k2 p q dts pts m b w :
  tm_ok k1 -> tm_ok k2 -> mueq k1 k2 -> never_fails w -> fits m (ap_media p) -> len (rdo m (ap_media p)) = len (media_of q) ->
  p_type (ap_pkt p) = p_type q -> p_header (ap_pkt p) = p_header q ->
  exists k1' k2' m' b' w' r,
    ts_mux_a pol k1 p dts pts (m, SBuf b) = (k1', (m', SBuf b', r)) /\ ts_mux k2 q dts pts w = (k2', (w', r)) /\
    tm_ok k1' /\ tm_ok k2' /\ mueq k1' k2' /\ bstep (m, b) (m', b').
Proof.
  intros K1 K2 KE HN HF HL ET EH. unfold ts_mux_a, ts_mux, video_of. rewrite ET, EH. cbn [fst].
  change (match ap_media p with Some a => rd m a | None => [] end) with (rdo m (ap_media p)). rewrite HL.
  assert (STOP : forall r : res unit, exists k1' k2' m' b' w' r', (k1, (m, SBuf b, r)) = (k1', (m', SBuf b', r')) /\ (k2, (w, r)) = (k2', (w', r')) /\
    tm_ok k1' /\ tm_ok k2' /\ mueq k1' k2' /\ bstep (m, b) (m', b')).
  { intros r. do 6 eexists; (split; [reflexivity|]); (split; [reflexivity|]); repeat (split; [assumption|]); apply bstep_refl. }
  assert (GO : p_type q = PktVideo \/ p_type q = PktAudio -> forall pid key, exists k1' k2' m' b' w' r,
    (let '(pesh, hl) := generate_pes_header (p_type q) (len (media_of q)) pts dts in
     mux_loop_a pol (Z.to_nat (len (media_of q) + hl)) k1 (p_type q) [71; u8 (Z.shiftr pid 8); u8 pid; 16] pesh (ap_media p) dts key
       (mkL (len (media_of q) + hl) hl 0 0 true) (m, SBuf b)) = (k1', (m', SBuf b', r)) /\
    (let '(pesh, hl) := generate_pes_header (p_type q) (len (media_of q)) pts dts in
     mux_loop (Z.to_nat (len (media_of q) + hl)) k2 (p_type q) [71; u8 (Z.shiftr pid 8); u8 pid; 16] pesh (media_of q) dts key
       (mkL (len (media_of q) + hl) hl 0 0 true) w) = (k2', (w', r)) /\
    tm_ok k1' /\ tm_ok k2' /\ mueq k1' k2' /\ bstep (m, b) (m', b')).
  { intros HT pid key. pose proof (pes_header_facts (p_type q) (len (media_of q)) pts dts HT) as HP.
    destruct (generate_pes_header (p_type q) (len (media_of q)) pts dts) as [pesh hl]. destruct HP as [HP HH].
    apply mux_loop_buf; try assumption; try reflexivity; [rewrite <- HL|]; apply linv_start; assumption. }
  destruct (Z.eqb_spec (p_type q) PktVideo) as [HV|HV].
  - destruct (match p_header q with Some h => h_video h | None => None end); [apply GO; left; exact HV|apply STOP].
  - destruct (Z.eqb_spec (p_type q) PktAudio) as [HA|HA]; [apply GO; right; exact HA|apply STOP].
Qed.
(** To the caller's writer, two muxers that differ in the scratch packet send the same. *)
Lemma ts_mux_eq k1 k2 p dts pts w : tm_ok k1 -> tm_ok k2 -> mueq k1 k2 ->
  exists k1' k2' wr, ts_mux k1 p dts pts w = (k1', wr) /\ ts_mux k2 p dts pts w = (k2', wr) /\ tm_ok k1' /\ tm_ok k2' /\ mueq k1' k2'.
Proof.
  intros K1 K2 KE.
  assert (SAME : forall k1' k2', same_but (p_type p) k1 k1' -> same_but (p_type p) k2 k2' -> cc_of (p_type p) k1' = cc_of (p_type p) k2' -> mueq k1' k2').
  { intros k1' k2' H1 H2 H3. apply mueq_fields in KE. apply mueq_fields. unfold same_but, cc_of in *. destruct (p_type p =? PktVideo); intuition congruence. }
  destruct (can_mux_dec p) as [HC|HC].
  - assert (HD : (is_key p = true /\ 176 <= len (mux_bytes p dts pts) <= 183) \/ (is_key p = true -> ~ 176 <= len (mux_bytes p dts pts) <= 183)).
    { destruct (is_key p); [|right; discriminate]. destruct (Z_le_dec 176 (len (mux_bytes p dts pts))), (Z_le_dec (len (mux_bytes p dts pts)) 183); [left; split; [reflexivity|lia]|right..]; lia. }
    destruct HD as [[HK HR]|HD].
    + (* the panic: only the counter has moved, in the same way *)
      assert (HV : p_type p = PktVideo) by (unfold is_key in HK; destruct (Z.eqb_spec (p_type p) PktVideo); [assumption|discriminate]).
      assert (HX : forall k, tm_ok k -> exists k', ts_mux k p dts pts w = (k', (w, Panic)) /\ tm_ok k' /\ mueq k' (fst (next_cc k PktVideo))).
      { intros k K. destruct HC as [HC|[_ HC]]; [rewrite HC in HV; discriminate|].
        unfold mux_bytes in HR. rewrite len_pes_bytes in HR by (left; exact HV).
        unfold ts_mux. rewrite generate_pes_ok by (left; exact HV). cbv zeta. rewrite HV in *. change (PktVideo =? PktVideo) with true. cbv iota.
        unfold is_key in HK. rewrite HV in HK. destruct (video_of p) as [vh|]; [|congruence]. change (v_key vh = true) in HK. rewrite HK.
        set (fuel := Z.to_nat _). destruct fuel as [|f0] eqn:EF; [unfold fuel in EF; lia|]. cbn [mux_loop l_total]. replace (0 <? len (media_of p) + pes_head_len PktVideo pts dts) with true by lia.
        pose proof (next_cc_ok k PktVideo K) as HN. destruct (next_cc k PktVideo) as [k' c]. destruct HN as (_ & _ & K' & _).
        change (u8 (Z.shiftr video_pid 8)) with 1. change (u8 video_pid) with 0.
        rewrite build_packet_panic; [exists k'; split; [reflexivity|split; [exact K'|apply mueq_refl]]|apply K'|reflexivity|exact HR]. }
      destruct (HX k1 K1) as (k1' & E1 & O1 & M1). destruct (HX k2 K2) as (k2' & E2 & O2 & M2).
      exists k1', k2', (w, Panic). repeat (split; [assumption|]). pose proof (next_cc_eq PktVideo k1 k2 KE) as [NE _].
      apply mueq_fields in M1. apply mueq_fields in M2. apply mueq_fields in NE. apply mueq_fields. intuition congruence.
    + pose proof (ts_mux_ok k1 p dts pts w K1 HC HD) as H1. pose proof (ts_mux_ok k2 p dts pts w K2 HC HD) as H2.
      destruct (ts_mux k1 p dts pts w) as [k1' wr1], (ts_mux k2 p dts pts w) as [k2' wr2].
      destruct H1 as (W1 & O1 & S1 & _ & C1), H2 as (W2 & O2 & S2 & _ & C2).
      assert (EW : wr1 = wr2) by (rewrite W1, W2; unfold mux_packets; rewrite (cc_of_eq _ _ _ KE); reflexivity).
      exists k1', k2', wr1. split; [reflexivity|]. split; [rewrite EW; reflexivity|]. repeat (split; [assumption|]). apply SAME; try assumption. rewrite C1, C2, EW, (cc_of_eq _ _ _ KE). reflexivity.
  - rewrite !ts_mux_refused by exact HC. do 3 eexists. repeat (split; [reflexivity|]). repeat (split; [assumption|]). exact KE.
Qed.

(** * Programs *)
(** Mixers equal but for the muxer's scratch packet. *)
Definition xeq (x y : tsmix) : Prop := x = set_muxer (x_muxer x) y /\ mueq (x_muxer x) (x_muxer y) /\ tm_ok (x_muxer x) /\ tm_ok (x_muxer y).
Lemma xeq_fields x y : xeq x y -> x_meta x = x_meta y /\ x_types x = x_types y /\ x_codec x = x_codec y /\ x_pts x = x_pts y /\ x_dts x = x_dts y /\ x_sync x = x_sync y.
Proof. intros (H & _). rewrite H. repeat split. Qed.
Lemma xeq_new : xeq new_tsmix new_tsmix.
Proof. split; [reflexivity|]. split; [apply mueq_refl|]. split; apply new_tsmux_ok. Qed.
Lemma xeq_codec x y c : xeq x y -> xeq (set_codec c x) (set_codec c y).
Proof. intros (H & M). split; [rewrite H; reflexivity|exact M]. Qed.
Lemma xeq_types x y c : xeq x y -> xeq (set_types c x) (set_types c y).
Proof. intros (H & M). split; [rewrite H; reflexivity|exact M]. Qed.
Lemma xeq_meta x y c : xeq x y -> xeq (set_meta c x) (set_meta c y).
Proof. intros (H & M). split; [rewrite H; reflexivity|exact M]. Qed.
Lemma xeq_times x y a b c : xeq x y -> xeq (set_times a b c x) (set_times a b c y).
Proof. intros (H & M). split; [rewrite H; reflexivity|exact M]. Qed.
Lemma xeq_muxer x y k1 k2 : xeq x y -> mueq k1 k2 -> tm_ok k1 -> tm_ok k2 -> xeq (set_muxer k1 x) (set_muxer k2 y).
Proof. intros (H & _) M K1 K2. split; [rewrite H; reflexivity|]. cbn [x_muxer set_muxer]. tauto. Qed.

Lemma parse_sim pol x y p s : xeq x y -> holds (fst s, breset (snd s)) [] -> (forall a, ap_media p = Some a -> apart s a) ->
  exists x' y' p' s' d r,
    mix_parse_a pol x p s = (x', p', (s', r)) /\
    mix_parse y (view (fst s) p) = (y', match r with Ok _ => set_media d (view (fst s) p) | _ => view (fst s) p end, r) /\
    xeq x' y' /\ holds s' d /\ bstep s s' /\ p' = match r with Ok _ => mkAP (ap_pkt p) (Some (bbytes (snd s'))) | _ => p end.
Proof.
  intros HX HH HA. destruct s as [m b]. cbn [fst snd] in *. unfold mix_parse_a, mix_parse. cbn [fst snd].
  pose proof (codec_same pol (x_codec x) p (m, breset b) buffer0 (fun _ => eq_refl) HH HA) as H.
  replace (x_codec y) with (x_codec x) by (apply xeq_fields in HX; tauto). cbn [fst] in H.
  destruct (codec_parse_a _ _ _ _) as [c [s' r]], (codec_parse _ _ _) as [c2 [w r2]]. destruct H as (H1 & H2 & H3 & H4 & H5). cbn [fst snd] in *. subst c2 r2.
  do 6 eexists. split; [reflexivity|]. split; [reflexivity|]. split; [apply xeq_codec, HX|]. split; [exact H3|]. split; [exact (bstep_trans _ _ _ (bstep_reset m b) H4)|].
  destruct r; reflexivity.
Qed.

Definition bufof (x : amix) (t : nat) : buf := match t with O => am_media x | S O => am_avc x | _ => am_aac x end.
Definition owner (mx : nat -> option amix) (i t a : nat) : Prop := exists x, mx i = Some x /\ (t < 3)%nat /\ b_arr (bufof x t) = a.
Definition inv (s : world) (p : pworld) (st : nat -> bool) : Prop :=
  (forall i t a, owner (wd_mixes s) i t a -> (a < length (wd_mem s))%nat) /\
  (forall i t i' t' a, owner (wd_mixes s) i t a -> owner (wd_mixes s) i' t' a -> i = i' /\ t = t') /\
  (forall k, p_type (ap_pkt (wd_pkts s k)) = p_type (pw_pkts p k)) /\
  (forall k, st k = false -> view (wd_mem s) (wd_pkts s k) = pw_pkts p k /\
     forall a, ap_media (wd_pkts s k) = Some a -> (s_arr a < length (wd_mem s))%nat /\ forall i t, ~ owner (wd_mixes s) i t (s_arr a)) /\
  (forall i, match wd_mixes s i, pw_mixes p i with
             | Some x, Some (y, w) => am_w x = w /\ xeq (am_x x) y
             | None, None => True
             | _, _ => False
             end).
Lemma upd_same {A} (f : nat -> A) k a : upd_nat f k a k = a. Proof. unfold upd_nat. rewrite Nat.eqb_refl. reflexivity. Qed.
Lemma upd_other {A} (f : nat -> A) k a j : j <> k -> upd_nat f k a j = f j. Proof. intros H. unfold upd_nat. apply Nat.eqb_neq in H. rewrite H. reflexivity. Qed.
Lemma owner_upd_same mx i x t a : owner (upd_nat mx i (Some x)) i t a <-> (t < 3)%nat /\ b_arr (bufof x t) = a.
Proof. unfold owner. rewrite upd_same. split; [intros (y & H & Ht & Ha); injection H as <-; tauto|intros H; exists x; tauto]. Qed.
Lemma owner_upd_other mx i j x t a : j <> i -> owner (upd_nat mx i x) j t a <-> owner mx j t a.
Proof. intros H. unfold owner. rewrite upd_other by exact H. reflexivity. Qed.
Lemma view_same m m' p : (forall a, ap_media p = Some a -> arr m' (s_arr a) = arr m (s_arr a)) -> view m' p = view m p.
Proof. intros H. unfold view. f_equal. destruct (ap_media p) as [a|]; [|reflexivity]. cbn [option_map]. f_equal. unfold rd. rewrite H by reflexivity. reflexivity. Qed.

Lemma inv_packet s p st i k x x' ap' m' t0 y' q' : inv s p st -> wd_mixes s i = Some x -> (t0 < 3)%nat ->
  bstep (wd_mem s, bufof x t0) (m', bufof x' t0) -> (forall t, t <> t0 -> (t < 3)%nat -> bufof x' t = bufof x t) ->
  xeq (am_x x') y' -> p_type (ap_pkt ap') = p_type q' ->
  inv (mkWd m' (upd_nat (wd_pkts s) k ap') (upd_nat (wd_mixes s) i (Some x')))
      (mkPWd (upd_nat (pw_pkts p) k q') (upd_nat (pw_mixes p) i (Some (y', am_w x')))) (upd_nat st k true).
Proof.
  intros (I1 & I2 & I3 & I4 & I5) HX HT (B1 & B2 & B3 & B4 & _) HB HE HP. cbn [fst snd] in *.
  assert (O0 : forall t, (t < 3)%nat -> owner (wd_mixes s) i t (b_arr (bufof x t))) by (intros t Ht; exists x; auto).
  assert (OW : forall j t a, owner (upd_nat (wd_mixes s) i (Some x')) j t a ->
    (owner (wd_mixes s) j t a) \/ (j = i /\ t = t0 /\ a = b_arr (bufof x' t0) /\ (length (wd_mem s) <= a)%nat)).
  { intros j t a H. destruct (Nat.eq_dec j i) as [->|Hj]; [|left; rewrite owner_upd_other in H by exact Hj; exact H].
    apply owner_upd_same in H. destruct H as [Ht Ha]. destruct (Nat.eq_dec t t0) as [->|Hn].
    - destruct B3 as [B3|B3]; [left; rewrite <- Ha, B3; apply O0, Ht|right; subst a; auto].
    - left. rewrite <- Ha, HB by assumption. apply O0, Ht. }
  unfold inv. cbn [wd_mem wd_pkts wd_mixes pw_pkts pw_mixes]. split; [|split; [|split; [|split]]].
  - intros j t a H. destruct (OW j t a H) as [H1|(-> & -> & -> & _)]; [apply I1 in H1; lia|]. apply B2, (I1 i t0), O0, HT.
  - intros j t j' t' a H H'. destruct (OW j t a H) as [H1|(-> & -> & Ea & L)], (OW j' t' a H') as [H2|(-> & -> & Ea' & L')].
    + eapply I2; eassumption.
    + exfalso. apply I1 in H1. lia.
    + exfalso. apply I1 in H2. lia.
    + split; reflexivity.
  - intros j. destruct (Nat.eq_dec j k) as [->|Hj]; [rewrite !upd_same; exact HP|rewrite !upd_other by exact Hj; apply I3].
  - intros j. destruct (Nat.eq_dec j k) as [->|Hj]; [rewrite !upd_same; discriminate|rewrite !upd_other by exact Hj].
    intros Hst. destruct (I4 j Hst) as [V A]. split.
    + rewrite <- V. apply view_same. intros a Ha. destruct (A a Ha) as [L NO]. apply B4; [exact L|]. intros E. apply (NO i t0). rewrite E. apply O0, HT.
    + intros a Ha. destruct (A a Ha) as [L NO]. split; [lia|]. intros j' t' H. destruct (OW j' t' _ H) as [H1|(_ & _ & _ & L')]; [exact (NO _ _ H1)|lia].
  - intros j. destruct (Nat.eq_dec j i) as [->|Hj]; [rewrite !upd_same; split; [reflexivity|exact HE]|rewrite !upd_other by exact Hj; apply I5].
Qed.
(** Calls that touch neither memory nor packets. *)
Lemma inv_mix s p st i x x' y' w' : inv s p st -> wd_mixes s i = Some x -> (forall t, bufof x' t = bufof x t) -> am_w x' = w' -> xeq (am_x x') y' ->
  inv (mkWd (wd_mem s) (wd_pkts s) (upd_nat (wd_mixes s) i (Some x'))) (mkPWd (pw_pkts p) (upd_nat (pw_mixes p) i (Some (y', w')))) st.
Proof.
  intros (I1 & I2 & I3 & I4 & I5) HX HB HW HE.
  assert (OW : forall j t a, owner (upd_nat (wd_mixes s) i (Some x')) j t a <-> owner (wd_mixes s) j t a).
  { intros j t a. destruct (Nat.eq_dec j i) as [->|Hj]; [|apply owner_upd_other, Hj]. rewrite owner_upd_same, HB. unfold owner. rewrite HX.
    split; [intros H; exists x; tauto|intros (y & H & Ht & Ha); injection H as <-; tauto]. }
  unfold inv. cbn [wd_mem wd_pkts wd_mixes pw_pkts pw_mixes]. split; [|split; [|split; [|split]]].
  - intros j t a H. apply OW in H. eapply I1, H.
  - intros j t j' t' a H H'. apply OW in H. apply OW in H'. eapply I2; eassumption.
  - exact I3.
  - intros j Hst. destruct (I4 j Hst) as [V A]. split; [exact V|]. intros a Ha. destruct (A a Ha) as [L NO]. split; [exact L|]. intros j' t' H. apply OW in H. exact (NO _ _ H).
  - intros j. destruct (Nat.eq_dec j i) as [->|Hj]; [rewrite !upd_same; split; assumption|rewrite !upd_other by exact Hj; apply I5].
Qed.
Lemma inv_set s p st k q : inv s p st -> inv (fst (astep (fun _ _ => 0) s (ASet k q))) (fst (pstep p (ASet k q))) (upd_nat st k false).
Proof.
  intros (I1 & I2 & I3 & I4 & I5). cbn [astep pstep fst].
  assert (HM : forall m' ap, set_pkt_media (wd_mem s) q = (m', ap) ->
    inv (mkWd m' (upd_nat (wd_pkts s) k ap) (wd_mixes s)) (mkPWd (upd_nat (pw_pkts p) k q) (pw_mixes p)) (upd_nat st k false)).
  { intros m' ap E.
    assert (HA : exists e, m' = wd_mem s ++ e /\ p_type (ap_pkt ap) = p_type q /\ view m' ap = q /\
      forall a, ap_media ap = Some a -> (length (wd_mem s) <= s_arr a < length m')%nat).
    { unfold set_pkt_media in E. destruct (p_media q) as [d|] eqn:ED; injection E as <- <-.
      - exists [d]. split; [reflexivity|]. split; [reflexivity|]. split; [|intros a Ha; injection Ha as <-; cbn [s_arr]; rewrite app_length; cbn [length]; lia].
        unfold view. cbn [ap_pkt ap_media option_map]. unfold rd. cbn [s_arr s_len]. rewrite arr_last, take_all by lia. destruct q; cbn in *; congruence.
      - exists []. split; [symmetry; apply app_nil_r|]. split; [reflexivity|]. split; [|discriminate]. unfold view. cbn [ap_pkt ap_media option_map]. destruct q; cbn in *; congruence. }
    destruct HA as (e & EM & ET & EV & EA). unfold inv. cbn [wd_mem wd_pkts wd_mixes pw_pkts pw_mixes].
    assert (LM : (length (wd_mem s) <= length m')%nat) by (rewrite EM, app_length; lia).
    split; [intros i t a H; apply I1 in H; lia|]. split; [exact I2|]. split; [|split; [|exact I5]].
    - intros j. destruct (Nat.eq_dec j k) as [->|Hj]; [rewrite !upd_same; exact ET|rewrite !upd_other by exact Hj; apply I3].
    - intros j. destruct (Nat.eq_dec j k) as [->|Hj]; [rewrite !upd_same|rewrite !upd_other by exact Hj].
      + intros _. split; [exact EV|]. intros a Ha. destruct (EA a Ha) as [L1 L2]. split; [exact L2|]. intros i t H. apply I1 in H. lia.
      + intros Hst. destruct (I4 j Hst) as [V A]. split.
        * rewrite <- V. apply view_same. intros a Ha. destruct (A a Ha) as [L _]. rewrite EM. apply arr_app1, L.
        * intros a Ha. destruct (A a Ha) as [L NO]. split; [lia|exact NO]. }
  destruct (set_pkt_media (wd_mem s) q) as [m' ap] eqn:E. apply (HM m' ap), eq_refl.
Qed.
Lemma inv_copy s p st k j : inv s p st -> inv (mkWd (wd_mem s) (upd_nat (wd_pkts s) k (wd_pkts s j)) (wd_mixes s))
  (mkPWd (upd_nat (pw_pkts p) k (pw_pkts p j)) (pw_mixes p)) (upd_nat st k (st j)).
Proof.
  intros (I1 & I2 & I3 & I4 & I5). unfold inv. cbn [wd_mem wd_pkts wd_mixes pw_pkts pw_mixes]. split; [exact I1|]. split; [exact I2|]. split; [|split; [|exact I5]].
  - intros l. destruct (Nat.eq_dec l k) as [->|Hl]; [rewrite !upd_same; apply I3|rewrite !upd_other by exact Hl; apply I3].
  - intros l. destruct (Nat.eq_dec l k) as [->|Hl]; [rewrite !upd_same; apply I4|rewrite !upd_other by exact Hl; apply I4].
Qed.
Lemma inv_new s p st i w : inv s p st ->
  inv (mkWd (fst (new_amix w (wd_mem s))) (wd_pkts s) (upd_nat (wd_mixes s) i (Some (snd (new_amix w (wd_mem s))))))
      (mkPWd (pw_pkts p) (upd_nat (pw_mixes p) i (Some (new_tsmix, w)))) st.
Proof.
  intros (I1 & I2 & I3 & I4 & I5). unfold new_amix. cbn [fst snd]. set (z := repeat 0 (Z.to_nat 512)). set (x := mkAM _ _ _ _ _). set (n := length (wd_mem s)).
  assert (LN : length (wd_mem s ++ [z; z; z]) = (n + 3)%nat) by (rewrite app_length; reflexivity).
  assert (OX : forall t a, owner (upd_nat (wd_mixes s) i (Some x)) i t a -> (n <= a < n + 3)%nat /\ a = match t with O => S (S n) | S O => n | _ => S n end /\ (t < 3)%nat).
  { intros t a H. apply owner_upd_same in H. destruct H as [Ht <-]. destruct t as [|[|[|t]]]; cbn [bufof x am_media am_avc am_aac b_arr]; fold n; repeat split; lia. }
  unfold inv. cbn [wd_mem wd_pkts wd_mixes pw_pkts pw_mixes]. rewrite LN. fold n in I1, I4. split; [|split; [|split; [exact I3|split]]].
  - intros j t a H. destruct (Nat.eq_dec j i) as [->|Hj]; [apply OX in H; lia|]. rewrite owner_upd_other in H by exact Hj. apply I1 in H. lia.
  - intros j t j' t' a H H'. destruct (Nat.eq_dec j i) as [->|Hj], (Nat.eq_dec j' i) as [->|Hj'].
    + apply OX in H. apply OX in H'. split; [reflexivity|]. destruct H as (_ & E & L), H' as (_ & E' & L'). destruct t as [|[|[|t]]], t' as [|[|[|t']]]; lia.
    + apply OX in H. rewrite owner_upd_other in H' by exact Hj'. apply I1 in H'. lia.
    + apply OX in H'. rewrite owner_upd_other in H by exact Hj. apply I1 in H. lia.
    + rewrite owner_upd_other in H by exact Hj. rewrite owner_upd_other in H' by exact Hj'. eapply I2; eassumption.
  - intros k Hst. destruct (I4 k Hst) as [V A]. split.
    + rewrite <- V. apply view_same. intros a Ha. destruct (A a Ha) as [L _]. apply arr_app1, L.
    + intros a Ha. destruct (A a Ha) as [L NO]. split; [lia|]. intros j t H. destruct (Nat.eq_dec j i) as [->|Hj]; [apply OX in H; lia|].
      rewrite owner_upd_other in H by exact Hj. exact (NO _ _ H).
  - intros j. destruct (Nat.eq_dec j i) as [->|Hj]; [rewrite !upd_same; split; [reflexivity|exact xeq_new]|rewrite !upd_other by exact Hj; apply I5].
Qed.

(** Mux on a packet not handed over before. *)
Lemma mux_sim pol x y w p q (m : mem) : am_w x = w -> xeq (am_x x) y -> (b_arr (am_media x) < length m)%nat ->
  view m p = q -> (forall a, ap_media p = Some a -> apart (m, am_media x) a) ->
  exists x' y' p' q' m' w' r, mix_mux_a pol x p m = (x', p', (m', r)) /\ mix_mux y q w = (y', q', (w', r)) /\
    bstep (m, am_media x) (m', am_media x') /\ am_avc x' = am_avc x /\ am_aac x' = am_aac x /\ am_w x' = w' /\ xeq (am_x x') y' /\
    p_type (ap_pkt p') = p_type q'.
Proof.
  intros HW HX HB HV HA. subst w q. unfold mix_mux_a, mix_mux.
  destruct (parse_sim pol (am_x x) y p (m, am_media x) HX) as (t & u & p' & [m' b'] & d & r & E1 & E2 & HX' & HH & HS & EP); [|exact HA|].
  { unfold holds. cbn [fst snd breset b_arr b_len]. split; [exact HB|split; reflexivity]. }
  rewrite E1. cbn [fst snd] in *. rewrite E2. destruct r as [v|e| |].
  2-4: do 7 eexists; (split; [reflexivity|]); (split; [reflexivity|]); (split; [exact HS|]); do 3 (split; [reflexivity|]); (split; [exact HX'|]); subst p'; reflexivity.
  subst p'. rewrite ts_mux_ext. set (p' := mkAP (ap_pkt p) (Some (bbytes b'))).
  assert (EV : view m' p' = set_media d (view m p)).
  { unfold view, set_media. cbn [p_type p_ts p_base p_stream p_header p_data ap_pkt p' ap_media option_map]. do 2 f_equal. unfold rd, bbytes. cbn [s_arr s_len]. apply HH. }
  rewrite EV. destruct (xeq_fields _ _ HX') as (_ & _ & _ & F1 & F2 & _). rewrite F1, F2. destruct HX' as (HX1 & M & K1 & K2).
  destruct (ts_mux_eq (x_muxer t) (x_muxer u) (set_media d (view m p)) (x_dts u) (x_pts u) (am_w x) K1 K2 M) as (k1 & k2 & [w' r'] & G1 & G2 & O1 & O2 & ME).
  rewrite G1, G2. do 7 eexists. split; [reflexivity|]. split; [reflexivity|]. split; [exact HS|]. do 3 (split; [reflexivity|]).
  split; [|reflexivity]. cbn [am_x]. apply xeq_muxer; try assumption. split; [exact HX1|]. tauto.
Qed.
Lemma save_sim pol t y p q (s : mem * buf) : xeq t y -> (b_arr (snd s) < length (fst s))%nat ->
  view (fst s) p = q -> (forall a, ap_media p = Some a -> apart s a) ->
  exists t' y' p' q' s' r, save_header_a pol t p s = (t', p', (s', r)) /\
    (let '(x, p, r) := mix_parse y q in
     match r with Ok _ => let '(k, (_, r)) := ts_mux (x_muxer x) p 0 0 buffer0 in (set_muxer k x, p, r) | _ => (x, p, r) end) = (y', q', r) /\
    bstep s s' /\ xeq t' y' /\ p_type (ap_pkt p') = p_type q'.
Proof.
  intros HX HB HV HA. subst q. destruct s as [m b]. cbn [fst snd] in *. unfold save_header_a.
  destruct (parse_sim pol t y p (m, b) HX) as (t1 & u & p' & [m' b'] & d & r & E1 & E2 & HX' & HH & HS & EP); [|exact HA|].
  { unfold holds. cbn [fst snd breset b_arr b_len]. split; [exact HB|split; reflexivity]. }
  rewrite E1. cbn [fst snd] in *. rewrite E2. destruct r as [v|e| |].
  2-4: do 6 eexists; (split; [reflexivity|]); (split; [reflexivity|]); (split; [exact HS|]); (split; [exact HX'|]); subst p'; reflexivity.
  subst p'. set (p' := mkAP (ap_pkt p) (Some (bbytes b'))). pose proof HX' as (HX1 & M & K1 & K2). destruct HH as (H1 & H2 & H3). cbn [fst snd] in *.
  assert (LN : 0 <= s_len (bbytes b') <= len (arr m' (s_arr (bbytes b')))).
  { cbn [bbytes s_arr s_len]. rewrite H3. split; [apply len_nonneg|]. rewrite <- H2. unfold take, len. rewrite firstn_length. lia. }
  destruct (ts_mux_buf pol (x_muxer t1) (x_muxer u) p' (set_media d (view m p)) 0 0 m' (breset b') buffer0 K1 K2 M (fun _ => eq_refl))
    as (k1 & k2 & m2 & b2 & w2 & r2 & G1 & G2 & O1 & O2 & ME & BS).
  { cbn [fits ap_media p' bbytes s_arr]. split; [exact H1|exact LN]. }
  { cbn [rdo ap_media p' media_of p_media set_media]. rewrite rd_len by exact LN. cbn [bbytes s_len]. exact H3. }
  { reflexivity. } { reflexivity. }
  rewrite G1, G2. do 6 eexists. split; [reflexivity|]. split; [reflexivity|]. split.
  { apply (bstep_trans _ _ _ HS). exact (bstep_trans _ _ _ (bstep_reset m' b') BS). }
  split; [apply xeq_muxer; assumption|reflexivity].
Qed.

(** The tables do not look at the scratch packet. *)
Lemma sdt_scratch k m d : ts_sdt (set_pkt k m) d = (set_pkt k (fst (ts_sdt m d)), snd (ts_sdt m d)).
Proof. unfold ts_sdt. change (tm_sdt (set_pkt k m)) with (tm_sdt m). repeat match goal with |- context [match ?e with _ => _ end] => destruct e end; reflexivity. Qed.
Lemma pat_scratch k m : ts_pat (set_pkt k m) = (set_pkt k (fst (ts_pat m)), snd (ts_pat m)).
Proof.
  unfold ts_pat. change (tm_patcc (set_pkt k m)) with (tm_patcc m). change (tm_pat (set_pkt k m)) with (tm_pat m).
  repeat match goal with |- context [match ?e with _ => _ end] => destruct e end; reflexivity.
Qed.
Lemma pmt_scratch k m mt : ts_pmt (set_pkt k m) mt = (set_pkt k (fst (ts_pmt m mt)), snd (ts_pmt m mt)).
Proof.
  unfold ts_pmt. change (tm_pmtcc (set_pkt k m)) with (tm_pmtcc m). change (tm_pmt (set_pkt k m)) with (tm_pmt m). destruct (pmt_programs _ _ _) as [pcr info].
  repeat match goal with |- context [match ?e with _ => _ end] => destruct e end; reflexivity.
Qed.

Lemma header_sim x y w : xeq x y -> exists x' y' wr, mix_set_header x w = (x', wr) /\ mix_set_header y w = (y', wr) /\ xeq x' y'.
Proof.
  intros (HX & M & K1 & K2). unfold mueq in M. rewrite HX, <- M. set (z := tm_pkt (x_muxer x)). set (k := x_muxer y).
  assert (HZ : forall j, tm_ok j -> tm_ok (set_pkt z j)) by (intros j J; apply tm_ok_set; [exact J|apply K1]).
  assert (FIN : forall j, tm_ok j -> xeq (set_muxer (set_pkt z j) (set_muxer (set_pkt z k) y)) (set_muxer j y)).
  { intros j J. split; [reflexivity|]. cbn [x_muxer set_muxer]. split; [apply mueq_fields; repeat split|split; [apply HZ, J|exact J]]. }
  unfold mix_set_header. cbn [x_muxer set_muxer x_meta x_types]. fold k.
  rewrite sdt_scratch. pose proof (sdt_ok k (x_meta y) K2) as O1. destruct (ts_sdt k (x_meta y)) as [k1 [sdt|e| |]]; cbn [fst snd] in *.
  2-4: do 3 eexists; (split; [reflexivity|]); (split; [reflexivity|]); apply FIN, O1.
  rewrite pat_scratch. pose proof (pat_ok k1 O1) as O2. destruct (ts_pat k1) as [k2 [pat|e| |]]; cbn [fst snd] in *.
  2-4: do 3 eexists; (split; [reflexivity|]); (split; [reflexivity|]); apply FIN, O2.
  rewrite pmt_scratch. pose proof (pmt_ok k2 (types_to_slice (x_types y)) O2) as O3. destruct (ts_pmt k2 _) as [k3 [pmt|e| |]]; cbn [fst snd] in *;
    do 3 eexists; (split; [reflexivity|]); (split; [reflexivity|]); apply FIN, O3.
Qed.
Lemma update_sim x y p q a b : xeq x y -> p_type p = p_type q -> exists x' y' r, mix_update x p a b = (x', r) /\ mix_update y q a b = (y', r) /\ xeq x' y'.
Proof.
  intros HX HT. destruct (xeq_fields _ _ HX) as (_ & _ & F1 & F2 & _ & F3). unfold mix_update. rewrite HT, F1, F2, F3.
  destruct (p_type q =? PktVideo); [|destruct (p_type q =? PktAudio); [destruct (codec_rate (x_codec y)) as [rate|e| |];
    [destruct (sync_audio _ _ _) as [[s d]|e| |]|..]|]];
  do 3 eexists; (split; [reflexivity|]); (split; [reflexivity|]); apply xeq_times, HX.
Qed.

Lemma astep_sim pol s p st o os : inv s p st -> each_once st (o :: os) ->
  exists s' p' st' r, astep pol s o = (s', r) /\ pstep p o = (p', r) /\ inv s' p' st' /\ each_once st' os.
Proof.
  intros HI HO.
  assert (NIL : forall i, (exists x y w, wd_mixes s i = Some x /\ pw_mixes p i = Some (y, w) /\ am_w x = w /\ xeq (am_x x) y) \/
    (wd_mixes s i = None /\ pw_mixes p i = None)).
  { intros i. destruct HI as (_ & _ & _ & _ & I5). specialize (I5 i). destruct (wd_mixes s i) as [x|], (pw_mixes p i) as [[y w]|]; try tauto. left. exists x, y, w. tauto. }
  assert (WEAK : forall st' os', each_once st' os' -> forall st0, (forall k, st0 k = true -> st' k = true) -> each_once st0 os').
  { intros st' os'. revert st'. induction os' as [|o' os' IH]; intros st' H st0 L; [exact I|].
    destruct o'; cbn [each_once] in *; try (apply (IH st' H st0 L)).
    1: apply (IH _ H); intros k0; unfold upd_nat; destruct (Nat.eqb k0 k); auto.
    1: apply (IH _ H); intros k0; unfold upd_nat; destruct (Nat.eqb k0 k); auto.
    all: destruct H as [H1 H2]; split; [destruct (st0 k) eqn:E; [apply L in E; congruence|reflexivity]|]; apply (IH _ H2); intros k0; unfold upd_nat; destruct (Nat.eqb k0 k); auto. }
  assert (PRE : forall i x k t, wd_mixes s i = Some x -> (t < 3)%nat -> st k = false ->
    (b_arr (bufof x t) < length (wd_mem s))%nat /\ view (wd_mem s) (wd_pkts s k) = pw_pkts p k /\
    forall a, ap_media (wd_pkts s k) = Some a -> apart (wd_mem s, bufof x t) a).
  { intros i x k t HX Ht Hst. destruct HI as (I1 & _ & _ & I4 & _). destruct (I4 k Hst) as [V A].
    assert (O : owner (wd_mixes s) i t (b_arr (bufof x t))) by (exists x; auto).
    split; [exact (I1 _ _ _ O)|]. split; [exact V|]. intros a Ha. destruct (A a Ha) as [L NO]. split; [exact L|]. intros E. cbn [snd] in E. rewrite <- E in O. exact (NO _ _ O). }
  destruct o as [k q|k j|i w|i k|i md|i k|i k|i|i k a b|i w]; cbn [each_once] in HO.
  - pose proof (inv_set s p st k q HI) as H. cbn [astep pstep] in *. destruct (set_pkt_media (wd_mem s) q) as [m' ap]. do 4 eexists. split; [reflexivity|]. split; [reflexivity|]. split; [exact H|exact HO].
  - do 4 eexists. split; [reflexivity|]. split; [reflexivity|]. split; [apply (inv_copy s p st k j HI)|exact HO].
  - pose proof (inv_new s p st i w HI) as H. cbn [astep pstep]. destruct (new_amix w (wd_mem s)) as [m' x]. do 4 eexists. split; [reflexivity|]. split; [reflexivity|]. split; [exact H|exact HO].
  - destruct HO as [Hst HO]. cbn [astep pstep]. unfold on_packet, on_mix. destruct (NIL i) as [(x & y & w & E1 & E2 & EW & HX)|[E1 E2]]; rewrite E1, E2.
    2:{ do 4 eexists. split; [reflexivity|]. split; [reflexivity|]. split; [exact HI|]. apply (WEAK _ _ HO). intros k0 Hk. unfold upd_nat. destruct (Nat.eqb k0 k); auto. }
    destruct (PRE i x k O E1 ltac:(lia) Hst) as (P1 & P2 & P3).
    destruct (mux_sim pol x y w (wd_pkts s k) (pw_pkts p k) (wd_mem s) EW HX P1 P2 P3) as (x' & y' & p' & q' & m' & w' & r & G1 & G2 & B & B2 & B3 & W & X & T).
    rewrite G1, G2. do 4 eexists. split; [reflexivity|]. split; [reflexivity|]. split; [|exact HO]. rewrite <- W.
    apply (inv_packet s p st i k x x' p' m' O y' q' HI E1); try assumption; [lia|]. intros [|[|t]] Ht Ht3; cbn [bufof am_media am_avc am_aac]; congruence.
  - cbn [astep pstep]. unfold on_mix. destruct (NIL i) as [(x & y & w & E1 & E2 & EW & HX)|[E1 E2]]; rewrite E1, E2.
    2:{ do 4 eexists. split; [reflexivity|]. split; [reflexivity|]. split; [exact HI|exact HO]. }
    unfold mix_save_metadata. do 4 eexists. split; [reflexivity|]. split; [reflexivity|]. split; [|exact HO].
    apply (inv_mix s p st i x); try assumption; [reflexivity|]. cbn [am_x set_x]. apply xeq_meta, HX.
  - destruct HO as [Hst HO]. cbn [astep pstep]. unfold on_packet, on_mix. destruct (NIL i) as [(x & y & w & E1 & E2 & EW & HX)|[E1 E2]]; rewrite E1, E2.
    2:{ do 4 eexists. split; [reflexivity|]. split; [reflexivity|]. split; [exact HI|]. apply (WEAK _ _ HO). intros k0 Hk. unfold upd_nat. destruct (Nat.eqb k0 k); auto. }
    destruct (PRE i x k 1%nat E1 ltac:(lia) Hst) as (P1 & P2 & P3). unfold mix_save_avc_a, mix_save_avc, mix_save_header.
    replace (x_types y) with (x_types (am_x x)) by (apply xeq_fields in HX; tauto). set (t := types_is_video _).
    destruct (save_sim pol (set_types t (am_x x)) (set_types t y) (wd_pkts s k) (pw_pkts p k) (wd_mem s, am_avc x) (xeq_types _ _ t HX) P1 P2 P3)
      as (t' & y' & p' & q' & [m' b'] & r & G1 & G2 & B & X & T).
    rewrite G1, G2. do 4 eexists. split; [reflexivity|]. split; [reflexivity|]. split; [|exact HO]. rewrite <- EW.
    apply (inv_packet s p st i k x (mkAM t' (am_w x) (am_media x) b' (am_aac x)) p' m' 1%nat y' q' HI E1); try assumption; [lia|].
    intros [|[|t0]] Ht Ht3; cbn [bufof am_media am_avc am_aac]; congruence.
  - destruct HO as [Hst HO]. cbn [astep pstep]. unfold on_packet, on_mix. destruct (NIL i) as [(x & y & w & E1 & E2 & EW & HX)|[E1 E2]]; rewrite E1, E2.
    2:{ do 4 eexists. split; [reflexivity|]. split; [reflexivity|]. split; [exact HI|]. apply (WEAK _ _ HO). intros k0 Hk. unfold upd_nat. destruct (Nat.eqb k0 k); auto. }
    destruct (PRE i x k 2%nat E1 ltac:(lia) Hst) as (P1 & P2 & P3). unfold mix_save_aac_a, mix_save_aac, mix_save_header.
    replace (x_types y) with (x_types (am_x x)) by (apply xeq_fields in HX; tauto). set (t := types_is_audio _).
    destruct (save_sim pol (set_types t (am_x x)) (set_types t y) (wd_pkts s k) (pw_pkts p k) (wd_mem s, am_aac x) (xeq_types _ _ t HX) P1 P2 P3)
      as (t' & y' & p' & q' & [m' b'] & r & G1 & G2 & B & X & T).
    rewrite G1, G2. do 4 eexists. split; [reflexivity|]. split; [reflexivity|]. split; [|exact HO]. rewrite <- EW.
    apply (inv_packet s p st i k x (mkAM t' (am_w x) (am_media x) (am_avc x) b') p' m' 2%nat y' q' HI E1); try assumption; [lia|].
    intros [|[|[|t0]]] Ht Ht3; cbn [bufof am_media am_avc am_aac]; congruence || lia.
  - cbn [astep pstep]. unfold on_mix. destruct (NIL i) as [(x & y & w & E1 & E2 & EW & HX)|[E1 E2]]; rewrite E1, E2.
    2:{ do 4 eexists. split; [reflexivity|]. split; [reflexivity|]. split; [exact HI|exact HO]. }
    destruct (header_sim (am_x x) y w HX) as (x' & y' & [w' r] & G1 & G2 & X). rewrite EW, G1, G2.
    do 4 eexists. split; [reflexivity|]. split; [reflexivity|]. split; [|exact HO]. apply (inv_mix s p st i x); try assumption; reflexivity.
  - cbn [astep pstep]. unfold on_mix. destruct (NIL i) as [(x & y & w & E1 & E2 & EW & HX)|[E1 E2]]; rewrite E1, E2.
    2:{ do 4 eexists. split; [reflexivity|]. split; [reflexivity|]. split; [exact HI|exact HO]. }
    destruct (update_sim (am_x x) y (ap_pkt (wd_pkts s k)) (pw_pkts p k) a b HX) as (x' & y' & r & G1 & G2 & X); [apply HI|]. rewrite G1, G2.
    do 4 eexists. split; [reflexivity|]. split; [reflexivity|]. split; [|exact HO]. apply (inv_mix s p st i x); try assumption; reflexivity.
  - cbn [astep pstep]. unfold on_mix. destruct (NIL i) as [(x & y & w0 & E1 & E2 & EW & HX)|[E1 E2]]; rewrite E1, E2.
    2:{ do 4 eexists. split; [reflexivity|]. split; [reflexivity|]. split; [exact HI|exact HO]. }
    do 4 eexists. split; [reflexivity|]. split; [reflexivity|]. split; [|exact HO]. apply (inv_mix s p st i x); try assumption; reflexivity.
Qed.
Lemma inv0 : inv world0 pworld0 (fun _ => false).
Proof.
  unfold inv, world0, pworld0. cbn [wd_mem wd_pkts wd_mixes pw_pkts pw_mixes].
  split; [intros i t a (x & H & _); discriminate|]. split; [intros i t i' t' a (x & H & _); discriminate|]. split; [reflexivity|].
  split; [|exact (fun _ => I)]. intros k _. split; [reflexivity|discriminate].
Qed.
Lemma arun_sim pol os : forall s p st, inv s p st -> each_once st os ->
  snd (arun pol s os) = snd (prun p os) /\
  forall i, option_map am_w (wd_mixes (fst (arun pol s os)) i) = option_map snd (pw_mixes (fst (prun p os)) i).
Proof.
  induction os as [|o os IH]; intros s p st HI HO.
  - cbn [arun prun fst snd]. split; [reflexivity|]. intros i. destruct HI as (_ & _ & _ & _ & I5). specialize (I5 i).
    destruct (wd_mixes s i) as [x|], (pw_mixes p i) as [[y w]|]; try tauto. destruct I5 as [<- _]. reflexivity.
  - destruct (astep_sim pol s p st o os HI HO) as (s' & p' & st' & r & E1 & E2 & HI' & HO'). cbn [arun prun]. rewrite E1, E2.
    destruct (IH s' p' st' HI' HO') as [H1 H2]. destruct (arun pol s' os) as [s2 rs], (prun p' os) as [p2 rp]. cbn [fst snd] in *. split; [congruence|exact H2].
Qed.
