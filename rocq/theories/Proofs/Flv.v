(** Lemmas about container/flv. *)
From Coq Require Import String.
From Verif Require Import Base.Go Base.GoFacts Base.IO Proofs.IOFacts Model.AmfTypes Model.Amf3 Model.Amf0 Model.Metadata
  Model.Packet Model.Flv Spec.Amf Spec.Gop Spec.Flv
  Proofs.AmfFacts Proofs.Amf0Enc Proofs.Amf0RT Proofs.AmfTerm Proofs.Amf0More Proofs.Metadata Proofs.Gop.
Local Ltac Zify.zify_post_hook ::= Z.div_mod_to_equations.

(** ** Invariant of the muxer's scratch buffers *)
Definition wf_mux (m : muxer) : Prop :=
  (exists a b c d e f g h, x_tag m = [a; b; c; d; e; f; g; h; 0; 0; 0]) /\
  (exists f, x_flv m = [70; 76; 86; 1; f; 0; 0; 0; 9; 0; 0; 0; 0] /\ Z.land f 250 = 0).

Definition hdr11 (ty n pts : Z) : bytes :=
  be32 (ty * 16777216 + n mod 16777216) ++ be32 ((pts mod 16777216) * 256 + pts / 16777216) ++ [0; 0; 0].
Definition tag_calls (ty : Z) (data : bytes) (pts : Z) : list bytes :=
  [hdr11 ty (len data) pts; data; be32 (11 + len data)].

Lemma put32_0 a b c d r v : put32 (a :: b :: c :: d :: r) 0 v = be32 v ++ r.
Proof. reflexivity. Qed.
Lemma put32_4 a b c d e f g h r v : put32 (a :: b :: c :: d :: e :: f :: g :: h :: r) 4 v = [a; b; c; d] ++ be32 v ++ r.
Proof. reflexivity. Qed.
Lemma cons_eq {A} (a b : A) l m : a = b -> l = m -> a :: l = b :: m. Proof. congruence. Qed.
Lemma be32_u32 v : be32 (u32 v) = be32 v.
Proof. unfold be32, u32, u8. repeat apply cons_eq; [lia| lia| lia| lia| reflexivity]. Qed.
Lemma be32_form v : exists a b c d, be32 v = [a; b; c; d].
Proof. unfold be32. eauto. Qed.

Lemma mux_ok m p pts w ty data : wf_mux m -> 0 <= pts < 2 ^ 32 -> mux_select p = Ok (ty, data) -> 0 <= ty < 256 ->
  exists m', wf_mux m' /\ mux m p pts w = (m', set_data data p, run_plan (tag_calls ty data pts) (Ok tt) w).
Proof.
  intros [(a & b & c & d & e & f & g & h & Ht) Hf] Hp HS Hty. unfold mux. rewrite HS.
  assert (E1 : put32 (put32 (x_tag m) 0 (u32 (u32 (Z.shiftl ty 24) + Z.land (u32 (len data)) 16777215))) 4
     (u32 (u32 (Z.shiftl (Z.land pts 16777215) 8) + Z.shiftr pts 24)) = hdr11 ty (len data) pts).
  { rewrite Ht, put32_0, !be32_u32. unfold be32 at 1. cbn [app]. rewrite put32_4. unfold hdr11.
    change 16777215 with (2 ^ 24 - 1). rewrite !land_ones, !shiftl_mul, shiftr_div by lia. change (2 ^ 24) with 16777216. change (2 ^ 8) with 256.
    unfold be32, u8, u32. change (2 ^ 32) with 4294967296 in Hp. pose proof (len_nonneg data). cbn [app].
    repeat apply cons_eq; try reflexivity; lia. }
  rewrite E1. cbn [run_plan tag_calls].
  assert (E3 : forall v, put32 (hdr11 ty (len data) pts) 0 v = be32 v ++ be32 ((pts mod 16777216) * 256 + pts / 16777216) ++ [0; 0; 0]).
  { intros v. unfold hdr11 at 1. unfold be32 at 1. cbn [app]. rewrite put32_0. reflexivity. }
  destruct (be32_form (ty * 16777216 + len data mod 16777216)) as (a1 & a2 & a3 & a4 & F1).
  destruct (be32_form ((pts mod 16777216) * 256 + pts / 16777216)) as (b1 & b2 & b3 & b4 & F2).
  assert (W2 : wf_mux (mkMx (x_flv m) (hdr11 ty (len data) pts))).
  { split; [|exact Hf]. unfold hdr11. rewrite F1, F2. cbn. repeat eexists. }
  destruct (write (hdr11 ty (len data) pts) w) as [w1 [u|er| |]].
  2-4: eexists; split; [exact W2|reflexivity].
  destruct (write data w1) as [w2 [u2|er| |]].
  2-4: eexists; split; [exact W2|reflexivity].
  rewrite E3. eexists. split; [|].
  2:{ f_equal. replace (take (be32 (u32 (11 + u32 (len data))) ++ be32 ((pts mod 16777216) * 256 + pts / 16777216) ++ [0; 0; 0]) 4) with (be32 (11 + len data)).
      - unfold write. destruct (w_script w2 (w_calls w2)); reflexivity.
      - change 4 with (len (be32 (u32 (11 + u32 (len data))))). rewrite take_app.
        unfold be32, u32, u8. repeat apply cons_eq; try reflexivity; lia. }
  split; [|exact Hf]. cbn [x_tag]. rewrite F2.
  destruct (be32_form (u32 (11 + u32 (len data)))) as (c1 & c2 & c3 & c4 & F3). rewrite F3. cbn. repeat eexists.
Qed.

Lemma mux_not_ok m p pts w : (forall x, mux_select p <> Ok x) ->
  mux m p pts w = (m, p, (w, match mux_select p with Ok _ => Ok tt | Err e => Err e | Panic => Panic | OutOfFuel => OutOfFuel end)).
Proof. intros H. unfold mux. destruct (mux_select p) as [x|e| |]; try reflexivity. elim (H x eq_refl). Qed.

Lemma select_range p ty d : mux_select p = Ok (ty, d) -> 0 <= ty < 256.
Proof.
  unfold mux_select. destruct (p_type p =? PktVideo); [intros H; inversion H; vm_compute; intuition discriminate|].
  destruct (p_type p =? PktAudio); [intros H; inversion H; vm_compute; intuition discriminate|].
  destruct (p_type p =? PktMetadata); [|discriminate].
  destruct (snd (del_meta_header decode0 (fresh (bytes_reader [])) (p_data p))); cbn [bind]; try discriminate.
  intros H; inversion H; vm_compute; intuition discriminate.
Qed.

Lemma mux_keeps_wf m p pts w : wf_mux m -> 0 <= pts < 2 ^ 32 -> wf_mux (fst (fst (mux m p pts w))).
Proof.
  intros Hm Hp. destruct (mux_select p) as [[ty d]|e| |] eqn:E.
  - destruct (mux_ok m p pts w ty d Hm Hp E (select_range _ _ _ E)) as (m' & H1 & H2). rewrite H2. exact H1.
  - unfold mux. rewrite E. exact Hm.
  - unfold mux. rewrite E. exact Hm.
  - unfold mux. rewrite E. exact Hm.
Qed.

(** ** The independent reader on the muxer's output *)
Lemma read_tag_calls ty data pts rest : 0 <= ty < 256 -> 0 <= pts < 2 ^ 32 -> len data < 2 ^ 24 ->
  read_tag (concat (tag_calls ty data pts) ++ rest) = Some (tag_for ty pts data, rest).
Proof.
  intros Hty Hp Hd. change (2 ^ 24) with 16777216 in Hd. change (2 ^ 32) with 4294967296 in Hp. pose proof (len_nonneg data).
  cbn [concat tag_calls]. rewrite app_nil_r, <- !app_assoc. unfold hdr11, be32 at 1 2. cbn [app read_tag].
  unfold u8.
  replace (((ty * 16777216 + len data mod 16777216) / 65536) mod 256 * 65536 + ((ty * 16777216 + len data mod 16777216) / 256) mod 256 * 256 +
           (ty * 16777216 + len data mod 16777216) mod 256) with (len data) by lia.
  assert (HN : Z.to_nat (len data) = length data) by (unfold len; apply Nat2Z.id). rewrite HN, skipn_app_len, firstn_app_len.
  unfold be32, u8. cbn [app]. unfold tag_for. f_equal. f_equal. f_equal; lia.
Qed.

(** Metadata packets whose payload is defined are muxed. *)
Lemma select_payload p d : payload p d -> mux_select p = Ok (tag_number (p_type p), d).
Proof.
  intros H. unfold mux_select, tag_number. change PktVideo with 0. change PktAudio with 1. change PktMetadata with 2.
  inversion H; subst.
  - destruct H0 as [H0|H0]; rewrite H0; reflexivity.
  - rewrite H0. cbn [Z.eqb Pos.eqb]. rewrite H1. change frame_header with set_frame_frame. unfold del_meta_header.
    rewrite decode0_frame, bytes_eqb_refl, len_frame, drop_frame. reflexivity.
  - rewrite H0. cbn [Z.eqb Pos.eqb]. rewrite H3. unfold del_meta_header. rewrite bytes_reader_contr.
    rewrite (decode0_short _ s rest true) by (reflexivity || assumption).
    destruct (bytes_eqb s set_data_frame) eqn:E; [|reflexivity]. apply bytes_eqb_eq in E. elim H2. exact E.
Qed.
Lemma payload_range p d : payload p d -> 0 <= p_type p <= 2.
Proof. intros H; inversion H; subst; lia. Qed.
Lemma tag_number_range t : 0 <= tag_number t < 256.
Proof. unfold tag_number. destruct (t =? 0); [lia|]. destruct (t =? 1); lia. Qed.

Lemma mixer_mux_ok x p pts w d : wf_mux (mx_muxer x) -> 0 <= pts < 2 ^ 32 -> payload p d ->
  exists x', wf_mux (mx_muxer x') /\ mixer_mux x p pts w = (x', set_data d p, run_plan (tag_calls (tag_number (p_type p)) d pts) (Ok tt) w).
Proof.
  intros Hx Hp Hd. unfold mixer_mux.
  destruct (mux_ok (mx_muxer x) p pts w _ d Hx Hp (select_payload _ _ Hd) (tag_number_range _)) as (m' & H1 & H2).
  rewrite H2. eexists. split; [|reflexivity]. exact H1.
Qed.

(** ** The header block *)
Lemma set_flag s i b : s = s -> put_byte s i b = take s i ++ b :: drop s (i + 1).
Proof. reflexivity. Qed.

Lemma mx_header_ok m t : wf_mux m -> 0 <= t < 4 ->
  exists m', wf_mux m' /\ mx_header m (types_to_slice t) =
    (m', Ok (flv_signature (Z.testbit t 0) (Z.testbit t 1))).
Proof.
  intros [Ht (f & Hf & Hl)] Hr. unfold mx_header. rewrite Hf.
  assert (E : put_byte [70; 76; 86; 1; f; 0; 0; 0; 9; 0; 0; 0; 0] 4 (Z.land (at_ [70; 76; 86; 1; f; 0; 0; 0; 9; 0; 0; 0; 0] 4) 250)
    = [70; 76; 86; 1; 0; 0; 0; 0; 9; 0; 0; 0; 0]).
  { change (at_ [70; 76; 86; 1; f; 0; 0; 0; 9; 0; 0; 0; 0] 4) with f. rewrite Hl. reflexivity. }
  rewrite E. assert (Hc : t = 0 \/ t = 1 \/ t = 2 \/ t = 3) by lia.
  destruct Hc as [->|[->|[->| ->]]]; (eexists; split; [|reflexivity]); (split; [exact Ht|]); cbn [x_flv]; eexists; (split; [reflexivity|reflexivity]).
Qed.

(** Invariant of a mixer history: what the caches contain. *)
Definition sel_tags (o : option flv_op) (s : bytes) : Prop :=
  forall ts, saved_last o ts -> reads_tags s ts.

Record MInv (h : list flv_op) (x : mixer) : Prop := {
  mi_wf : wf_mux (mx_muxer x);
  mi_types : 0 <= mx_types x < 4;
  mi_video : Z.testbit (mx_types x) 0 = existsb sel_avc h;
  mi_audio : Z.testbit (mx_types x) 1 = existsb sel_aac h;
  mi_meta : sel_tags (latest sel_meta h) (mx_meta x);
  mi_avc : sel_tags (latest sel_avc h) (mx_avc x);
  mi_aac : sel_tags (latest sel_aac h) (mx_aac x) }.

Lemma minv_new : MInv [] new_mixer.
Proof.
  constructor; try reflexivity; try (vm_compute; intuition discriminate).
  - split; [repeat eexists|exists 0; split; reflexivity].
  - intros ts H. cbn in H. subst. constructor.
  - intros ts H. cbn in H. subst. constructor.
  - intros ts H. cbn in H. subst. constructor.
Qed.

Lemma existsb_snoc {A} (f : A -> bool) l x : existsb f (l ++ [x]) = existsb f l || f x.
Proof. rewrite existsb_app. cbn. rewrite orb_false_r. reflexivity. Qed.
Lemma types_video t : 0 <= t < 4 -> 0 <= types_is_video t < 4 /\ Z.testbit (types_is_video t) 0 = true /\ Z.testbit (types_is_video t) 1 = Z.testbit t 1.
Proof. intros H. assert (Hc : t = 0 \/ t = 1 \/ t = 2 \/ t = 3) by lia. destruct Hc as [->|[->|[->| ->]]]; vm_compute; intuition discriminate. Qed.
Lemma types_audio t : 0 <= t < 4 -> 0 <= types_is_audio t < 4 /\ Z.testbit (types_is_audio t) 1 = true /\ Z.testbit (types_is_audio t) 0 = Z.testbit t 0.
Proof. intros H. assert (Hc : t = 0 \/ t = 1 \/ t = 2 \/ t = 3) by lia. destruct Hc as [->|[->|[->| ->]]]; vm_compute; intuition discriminate. Qed.

Lemma reads_one ty data pts : 0 <= ty < 256 -> 0 <= pts < 2 ^ 32 -> len data < 2 ^ 24 ->
  reads_tags (concat (tag_calls ty data pts)) [tag_for ty pts data].
Proof.
  intros H1 H2 H3. econstructor; [|constructor].
  rewrite <- (app_nil_r (concat _)). apply read_tag_calls; assumption.
Qed.

Lemma never_fails_buffer0 : never_fails buffer0. Proof. intros n; reflexivity. Qed.

Lemma saved_avc_aac m p : wf_mux m -> exists m' p' w r, mux m p 0 buffer0 = (m', p', (w, r)) /\ wf_mux m' /\
  (forall d, payload p d -> len d < 2 ^ 24 -> reads_tags (w_out w) [tag_for (tag_number (p_type p)) 0 d]) /\
  (~ 0 <= p_type p <= 2 -> w_out w = []).
Proof.
  intros Hm. pose proof (mux_keeps_wf m p 0 buffer0 Hm ltac:(lia)) as Hk.
  destruct (mux m p 0 buffer0) as [[m' p'] [w r]] eqn:E. cbn [fst] in Hk. exists m', p', w, r.
  split; [reflexivity|]. split; [exact Hk|]. split.
  - intros d Hd Hl. destruct (mux_ok m p 0 buffer0 _ d Hm ltac:(lia) (select_payload _ _ Hd) (tag_number_range _)) as (m2 & _ & E2).
    rewrite E in E2. rewrite run_plan_ok in E2 by apply never_fails_buffer0. inversion E2; subst. cbn [w_out buffer0 app].
    apply reads_one; [apply tag_number_range|lia|exact Hl].
  - intros Ht. assert (ES : mux_select p = Err EOther).
    { unfold mux_select. change PktVideo with 0. change PktAudio with 1. change PktMetadata with 2.
      replace (p_type p =? 0) with false by lia. replace (p_type p =? 1) with false by lia. replace (p_type p =? 2) with false by lia. reflexivity. }
    rewrite mux_not_ok in E by (rewrite ES; discriminate). inversion E; subst. reflexivity.
Qed.

Lemma ok0_str s : is_bytes s -> len s < 4294967296 -> ok0 (TStr s). Proof. cbn. auto. Qed.
Lemma is_bytes_dec s : forallb (fun b => (0 <=? b) && (b <? 256)) s = true -> is_bytes s.
Proof. intros H. apply Forall_forall. intros x Hx. apply (proj1 (forallb_forall _ _) H) in Hx. unfold byte. lia. Qed.
Lemma meta_pool md : ok0 (TObj md) ->
  exists n, (w* _ := encode0 (TStr set_data_frame) in w* _ := encode0 (TStr on_metadata) in encode0 (TObj md)) buffer0 =
    (mkW (frame_header ++ ([2; 0; 10] ++ str "onMetaData") ++ wire0 (TObj md)) n (fun _ => None), Ok (len (wire0 (TObj md)))).
Proof.
  intros Hok.
  assert (H1 : ok0 (TStr set_data_frame)) by (apply ok0_str; [apply is_bytes_dec; vm_compute; reflexivity|vm_compute; reflexivity]).
  assert (H2 : ok0 (TStr on_metadata)) by (apply ok0_str; [apply is_bytes_dec; vm_compute; reflexivity|vm_compute; reflexivity]).
  pose proof (emits_bind _ (fun _ => w* _ := encode0 (TStr on_metadata) in encode0 (TObj md)) _ _ _ _ (encode0_emits _ H1)
    (emits_bind _ (fun _ => encode0 (TObj md)) _ _ _ _ (encode0_emits _ H2) (encode0_emits _ Hok))) as HE.
  destruct (emits_run _ _ _ buffer0 HE never_fails_buffer0) as [n E]. rewrite E. exists n. f_equal.
Qed.

Lemma saved_metadata m md : wf_mux m -> exists m' r, mx_metadata m md = (m', r) /\ wf_mux m' /\
  (forall s, ok0 (TObj md) -> wire0 (TObj md) = s -> len s < 2 ^ 24 - 13 ->
     exists b, r = Ok b /\ reads_tags b [tag_for 18 0 ([2; 0; 10] ++ str "onMetaData" ++ s)]).
Proof.
  intros Hm. unfold mx_metadata.
  destruct ((w* _ := encode0 (TStr set_data_frame) in w* _ := encode0 (TStr on_metadata) in encode0 (TObj md)) buffer0) as [pool r0] eqn:Ep.
  assert (HK : wf_mux (fst (fst (mux m (mkP PktMetadata 0 0 0 None (w_out pool) None) 0 buffer0)))) by (apply mux_keeps_wf; [exact Hm|lia]).
  destruct (mux m (mkP PktMetadata 0 0 0 None (w_out pool) None) 0 buffer0) as [[m' p'] [d r2]] eqn:Em. cbn [fst] in HK.
  destruct r0 as [u|e| |].
  - eexists _, _. split; [reflexivity|]. split; [exact HK|]. intros s Hok Hs Hl.
    destruct (meta_pool md Hok) as [n En]. rewrite En in Ep. pose proof (f_equal fst Ep) as Ep2. cbn [fst] in Ep2. subst pool. cbn [w_out] in Em.
    remember (([2; 0; 10] ++ str "onMetaData") ++ wire0 (TObj md)) as B eqn:HB.
    assert (HP : payload (mkP PktMetadata 0 0 0 None (frame_header ++ B) None) B) by (apply Pl_meta_rtmp; reflexivity).
    remember (frame_header ++ B) as F eqn:HF.
    destruct (mux_ok m _ 0 buffer0 _ _ Hm ltac:(lia) (select_payload _ _ HP) (tag_number_range _)) as (m2 & _ & E2).
    rewrite Em in E2. rewrite run_plan_ok in E2 by apply never_fails_buffer0. pose proof (f_equal (fun x => fst (snd x)) E2) as E3. pose proof (f_equal (fun x => snd (snd x)) E2) as E4. cbn [fst snd] in E3, E4. subst d r2.
    eexists. split; [reflexivity|]. replace ([2; 0; 10] ++ str "onMetaData" ++ s) with B by (rewrite HB, Hs; reflexivity). cbn [w_out buffer0 app p_type].
    change (tag_number PktMetadata) with 18. apply reads_one; [lia|lia|].
    rewrite HB, len_app, Hs. change (len ([2; 0; 10] ++ str "onMetaData")) with 13. lia.
  - eexists _, _. split; [reflexivity|]. split; [exact Hm|]. intros s Hok _ _. destruct (meta_pool md Hok) as [n En]. rewrite En in Ep. discriminate.
  - eexists _, _. split; [reflexivity|]. split; [exact Hm|]. intros s Hok _ _. destruct (meta_pool md Hok) as [n En]. rewrite En in Ep. discriminate.
  - eexists _, _. split; [reflexivity|]. split; [exact Hm|]. intros s Hok _ _. destruct (meta_pool md Hok) as [n En]. rewrite En in Ep. discriminate.
Qed.

(** Timestamps in a history are uint32. *)
Definition op_ok (o : flv_op) : Prop := match o with FMux _ pts => 0 <= pts < 2 ^ 32 | _ => True end.

Lemma sel_tags_keep o b : (forall ts, saved_last o ts -> reads_tags b ts) -> sel_tags o b. Proof. auto. Qed.

Lemma minv_step h x w o x' w' r : MInv h x -> op_ok o -> flv_step (x, w) o = (x', w', r) -> MInv (h ++ [o]) x'.
Proof.
  intros [Iw It Iv Ia Im Ic Ik] Ho E. destruct o as [md|p|p|p pts| |w0]; cbn [flv_step] in E.
  - unfold save_metadata in E. destruct (saved_metadata (mx_muxer x) md Iw) as (m' & rr & E1 & E2 & E3). rewrite E1 in E.
    assert (HS : forall b, (forall bb, rr = Ok bb -> b = bb) -> sel_tags (Some (FSaveMeta md)) b).
    { intros b Hb ts HS. cbn in HS. inversion HS; subst. destruct (E3 _ H0 eq_refl H2) as (bb & Hbb & HR). rewrite (Hb bb Hbb). exact HR. }
    destruct rr as [b|e| |]; inversion E; subst; constructor; cbn [mx_muxer mx_types mx_meta mx_avc mx_aac];
      rewrite ?existsb_snoc, ?latest_snoc; cbn [sel_meta sel_avc sel_aac]; rewrite ?orb_false_r; try assumption;
      apply HS; intros bb Hb; congruence.
  - unfold save_avc_header in E. destruct (saved_avc_aac (mx_muxer x) p Iw) as (m' & p' & w1 & r1 & E1 & E2 & E3 & E4). rewrite E1 in E.
    destruct (types_video _ It) as (T1 & T2 & T3). inversion E; subst; constructor; cbn [mx_muxer mx_types mx_meta mx_avc mx_aac];
      rewrite ?existsb_snoc, ?latest_snoc; cbn [sel_meta sel_avc sel_aac]; rewrite ?orb_false_r, ?orb_true_r; try assumption.
    + rewrite T3; assumption.
    + intros ts HS. cbn in HS. inversion HS; subst; [apply E3; assumption|]. rewrite (E4 H0). constructor.
  - unfold save_aac_header in E. destruct (saved_avc_aac (mx_muxer x) p Iw) as (m' & p' & w1 & r1 & E1 & E2 & E3 & E4). rewrite E1 in E.
    destruct (types_audio _ It) as (T1 & T2 & T3). inversion E; subst; constructor; cbn [mx_muxer mx_types mx_meta mx_avc mx_aac];
      rewrite ?existsb_snoc, ?latest_snoc; cbn [sel_meta sel_avc sel_aac]; rewrite ?orb_false_r, ?orb_true_r; try assumption.
    + rewrite T3; assumption.
    + intros ts HS. cbn in HS. inversion HS; subst; [apply E3; assumption|]. rewrite (E4 H0). constructor.
  - unfold mixer_mux in E. pose proof (mux_keeps_wf (mx_muxer x) p pts w Iw Ho) as HK.
    destruct (mux (mx_muxer x) p pts w) as [[m' p'] [w1 r1]]. cbn [fst] in HK. inversion E; subst.
    constructor; cbn [mx_muxer mx_types mx_meta mx_avc mx_aac];
      rewrite ?existsb_snoc, ?latest_snoc; cbn [sel_meta sel_avc sel_aac]; rewrite ?orb_false_r; assumption.
  - unfold set_flv_header in E. destruct (mx_header_ok (mx_muxer x) (mx_types x) Iw It) as (m' & E1 & E2). rewrite E2 in E.
    destruct ((w* _ := write _ in _) w) as [w1 r1] in E. inversion E; subst.
    constructor; cbn [mx_muxer mx_types mx_meta mx_avc mx_aac];
      rewrite ?existsb_snoc, ?latest_snoc; cbn [sel_meta sel_avc sel_aac]; rewrite ?orb_false_r; assumption.
  - inversion E; subst. constructor; rewrite ?existsb_snoc, ?latest_snoc; cbn [sel_meta sel_avc sel_aac]; rewrite ?orb_false_r; assumption.
Qed.
Lemma minv_run os : forall h x w x' w' rs, MInv h x -> Forall op_ok os -> flv_run (x, w) os = (x', w', rs) -> MInv (h ++ os) x'.
Proof.
  induction os as [|o os IH]; intros h x w x' w' rs HI HO E; cbn [flv_run] in E.
  - inversion E; subst. rewrite app_nil_r. exact HI.
  - destruct (flv_step (x, w) o) as [[x1 w1] r] eqn:E1. destruct (flv_run (x1, w1) os) as [[x2 w2] rs2] eqn:E2. inversion E; subst.
    inversion HO; subst. change (o :: os) with ([o] ++ os). rewrite app_assoc.
    eapply IH; [eapply minv_step; eassumption|assumption|exact E2].
Qed.

Lemma write_cache_plan b : planned (write_cache b) (if 0 <? len b then [b] else []) (Ok tt).
Proof. unfold write_cache. destruct (0 <? len b); [apply planned_write|apply planned_ret]. Qed.
Lemma concat_cache (b : bytes) : concat (if 0 <? len b then [b] else @nil bytes) = b.
Proof. destruct b as [|x b]; [reflexivity|]. rewrite len_cons. pose proof (len_nonneg b). replace (0 <? 1 + len b) with true by lia. cbn [concat]. apply app_nil_r. Qed.

Definition header_calls (v a : bool) (x : mixer) : list bytes :=
  [flv_signature v a] ++ (if 0 <? len (mx_meta x) then [mx_meta x] else []) ++
  (if 0 <? len (mx_avc x) then [mx_avc x] else []) ++ (if 0 <? len (mx_aac x) then [mx_aac x] else []).
Lemma set_flv_header_plan h x w : MInv h x ->
  exists x', set_flv_header x w = (x', run_plan (header_calls (existsb sel_avc h) (existsb sel_aac h) x) (Ok tt) w).
Proof.
  intros [Iw It Iv Ia Im Ic Ik]. unfold set_flv_header. destruct (mx_header_ok (mx_muxer x) (mx_types x) Iw It) as (m' & E1 & E2). rewrite E2.
  eexists. f_equal. rewrite Iv, Ia. unfold header_calls.
  apply (planned_bind _ _ _ tt _ (Ok tt)); [apply planned_write|].
  apply (planned_bind _ _ _ tt _ (Ok tt)); [apply write_cache_plan|].
  apply (planned_bind _ _ _ tt _ (Ok tt)); [apply write_cache_plan|]. apply write_cache_plan.
Qed.

(** reads_tags is functional and compatible with concatenation. *)
Lemma read_tag_app s t rest x : read_tag s = Some (t, rest) -> read_tag (s ++ x) = Some (t, rest ++ x).
Proof.
  unfold read_tag. intros H.
  do 11 (destruct s as [|? s]; [discriminate|]). cbn [app].
  set (n := Z.to_nat _) in *.
  destruct (skipn n s) as [|p1 [|p2 [|p3 [|p4 r']]]] eqn:E; try discriminate.
  assert (Hn : (n <= length s)%nat).
  { destruct (Nat.le_gt_cases n (length s)); [assumption|]. rewrite skipn_all2 in E by lia. discriminate. }
  rewrite skipn_app, E, firstn_app. replace (n - length s)%nat with 0%nat by lia. cbn [app skipn firstn]. rewrite app_nil_r.
  inversion H; subst. reflexivity.
Qed.
Lemma reads_app s1 ts1 s2 ts2 : reads_tags s1 ts1 -> reads_tags s2 ts2 -> reads_tags (s1 ++ s2) (ts1 ++ ts2).
Proof.
  intros H1 H2. induction H1 as [|s t rest ts Hr H IH]; [exact H2|]. cbn [app].
  econstructor; [apply read_tag_app; exact Hr|exact IH].
Qed.
Lemma reads_fun s ts1 : reads_tags s ts1 -> forall ts2, reads_tags s ts2 -> ts1 = ts2.
Proof.
  induction 1 as [|s t rest ts Hr H IH]; intros ts2 H2; inversion H2; subst; try reflexivity.
  - discriminate.
  - discriminate.
  - rewrite Hr in H0. inversion H0; subst. f_equal. apply IH. assumption.
Qed.

(** ** Demux *)
Lemma shr4 b : byte b -> Z.shiftr b 4 = b / 16. Proof. intros. rewrite shiftr_div by lia. reflexivity. Qed.
Lemma land15 b : Z.land b 15 = b mod 16. Proof. change 15 with (2 ^ 4 - 1). rewrite land_ones by lia. reflexivity. Qed.

Lemma cts3 c a b d : byte a -> byte b -> byte d -> cts_step (cts_step (cts_step c a) b) d = i32 (c * 16777216 + be24_val a b d).
Proof.
  unfold byte, cts_step, be24_val. intros. rewrite !shiftl_mul by lia. change (2 ^ 8) with 256. unfold i32. lia.
Qed.
