(** Properties C01 - C07, C99: container/flv. *)
From Coq Require Import String.
From Verif Require Import Base.Go Base.GoFacts Base.IO Proofs.IOFacts Model.AmfTypes Model.Amf3 Model.Amf0 Model.Metadata
  Model.Packet Model.Flv Spec.Amf Spec.Gop Spec.Flv Proofs.AmfFacts Proofs.Metadata Proofs.Gop Proofs.Flv Spec.Failed Proofs.IOFail.
Local Ltac Zify.zify_post_hook ::= Z.div_mod_to_equations.

(** A Mixer in use: made by NewMixer, then any operations with any results on any writers. Timestamps are
    uint32. *)
Definition in_use (h : list flv_op) (x : mixer) : Prop :=
  exists w0 w rs, Forall op_ok h /\ flv_run (new_mixer, w0) h = (x, w, rs).
Lemma in_use_inv h x : in_use h x -> MInv h x.
Proof. intros (w0 & w & rs & H1 & H2). exact (minv_run h [] _ _ _ _ _ minv_new H1 H2). Qed.
Lemma in_use_wf h x : in_use h x -> wf_mux (mx_muxer x).
Proof. intros H. apply (mi_wf _ _ (in_use_inv _ _ H)). Qed.

(** ** C01 *)
Definition mux_ops (l : list (packet * Z)) : list flv_op := map (fun q => FMux (fst q) (snd q)) l.
Lemma C01_aux l : forall x w x' w' rs ds, wf_mux (mx_muxer x) ->
  Forall2 (fun q d => payload (fst q) d /\ len d < 2 ^ 24 /\ 0 <= snd q < 2 ^ 32) l ds ->
  flv_run (x, w) (mux_ops l) = (x', w', rs) -> Forall (fun r => r = Ok tt) rs ->
  exists s, w_out w' = w_out w ++ s /\
    reads_tags s (map (fun qd => tag_for (tag_number (p_type (fst (fst qd)))) (snd (fst qd)) (snd qd)) (combine l ds)).
Proof.
  induction l as [|[p pts] l IH]; intros x w x' w' rs ds Hx HF E HA; inversion HF as [|? d ? ds' (Hd & Hl & Hp) HF']; subst.
  - cbn in E. inversion E; subst. exists []. rewrite app_nil_r. split; [reflexivity|constructor].
  - cbn [mux_ops map fst snd flv_run flv_step] in E. cbn [fst snd] in *.
    destruct (mixer_mux_ok x p pts w d Hx Hp Hd) as (x1 & W1 & E1). rewrite E1 in E.
    destruct (run_plan_any (tag_calls (tag_number (p_type p)) d pts) (Ok tt) w) as (w1 & r1 & R1 & _ & R2). rewrite R1 in E.
    destruct (flv_run (x1, w1) (mux_ops l)) as [[x2 w2] rs2] eqn:E2.
    change (map (fun q => FMux (fst q) (snd q)) l) with (mux_ops l) in E. rewrite E2 in E. inversion E; subst.
    inversion HA; subst. destruct (IH _ _ _ _ _ _ W1 HF' E2 H2) as (s & S1 & S2).
    destruct R2 as [(_ & R2 & _)|(R2 & _)]; [|discriminate].
    exists (concat (tag_calls (tag_number (p_type p)) d pts) ++ s). split; [rewrite S1, R2, <- app_assoc; reflexivity|].
    cbn [combine map fst snd]. eapply RT_cons; [apply read_tag_calls; [apply tag_number_range|exact Hp|exact Hl]|exact S2].
Qed.
(** Any Mux calls that all succeeded, on any writer. *)
Theorem C01_flv_framing : forall h x l ds w x' w' rs, in_use h x ->
  Forall2 (fun q d => payload (fst q) d /\ len d < 2 ^ 24 /\ 0 <= snd q < 2 ^ 32) l ds ->
  flv_run (x, w) (mux_ops l) = (x', w', rs) -> Forall (fun r => r = Ok tt) rs ->
  exists s, w_out w' = w_out w ++ s /\
    reads_tags s (map (fun qd => tag_for (tag_number (p_type (fst (fst qd)))) (snd (fst qd)) (snd qd)) (combine l ds)).
Proof. intros h x l ds w x' w' rs Hx. apply C01_aux. exact (in_use_wf _ _ Hx). Qed.
Print Assumptions C01_flv_framing.
(** On a writer that does not fail they all succeed. *)
Theorem C01_mux_succeeds : forall h x p pts d w, in_use h x -> payload p d -> 0 <= pts < 2 ^ 32 -> never_fails w ->
  exists x' p' w', mixer_mux x p pts w = (x', p', (w', Ok tt)) /\ never_fails w'.
Proof.
  intros h x p pts d w Hx Hd Hp Hw. destruct (mixer_mux_ok x p pts w d (in_use_wf _ _ Hx) Hp Hd) as (x' & _ & E). rewrite E.
  rewrite run_plan_ok by exact Hw. eexists _, _, _. split; [reflexivity|]. exact Hw.
Qed.
Print Assumptions C01_mux_succeeds.
(** The reader is a function: no other sequence of tags can be read from the same bytes. *)
Theorem C01_reader_deterministic : forall s ts1 ts2, reads_tags s ts1 -> reads_tags s ts2 -> ts1 = ts2.
Proof. intros s ts1 ts2 H1 H2. exact (reads_fun _ _ H1 _ H2). Qed.
Print Assumptions C01_reader_deterministic.

Lemma select_shape p ty d : mux_select p = Ok (ty, d) ->
  ty = tag_number (p_type p) /\ 0 <= p_type p <= 2 /\
  (d = p_data p \/ p_type p = 2 /\ 16 <= len (p_data p) /\ d = drop (p_data p) 16).
Proof.
  unfold mux_select, tag_number. change PktVideo with 0. change PktAudio with 1. change PktMetadata with 2.
  destruct (Z.eqb_spec (p_type p) 0) as [E0|E0]; [intros H; inversion H; subst; split; [reflexivity|split; [lia|left; reflexivity]]|].
  destruct (Z.eqb_spec (p_type p) 1) as [E1|E1]; [intros H; inversion H; subst; split; [reflexivity|split; [lia|left; reflexivity]]|].
  destruct (Z.eqb_spec (p_type p) 2) as [E2|E2]; [|discriminate].
  unfold del_meta_header. destruct (decode0 (set_r (bytes_reader (p_data p)) (fresh (bytes_reader [])))) as [d' [v|e| |]]; cbn [snd bind]; try discriminate.
  destruct v; cbn [snd bind]; try discriminate.
  destruct (bytes_eqb s set_data_frame); cbn [snd bind].
  - change (len set_frame_frame) with 16. destruct (len (p_data p) <? 16) eqn:El; cbn [snd bind]; try discriminate.
    intros H; inversion H; subst. split; [reflexivity|]. split; [lia|]. right. split; [exact E2|]. split; [lia|]. reflexivity.
  - intros H; inversion H; subst. split; [reflexivity|]. split; [lia|]. left; reflexivity.
Qed.
(** Every successful Mux call whatsoever, also of metadata of any other form: one tag, whose payload is the
    packet's data, or, only for metadata, the data without its first 16 bytes. *)
Theorem C01_any_success : forall h x p pts w x' p' w', in_use h x -> 0 <= pts < 2 ^ 32 -> len (p_data p) < 2 ^ 24 ->
  mixer_mux x p pts w = (x', p', (w', Ok tt)) ->
  exists s d, w_out w' = w_out w ++ s /\ 0 <= p_type p <= 2 /\ reads_tags s [tag_for (tag_number (p_type p)) pts d] /\
    (d = p_data p \/ p_type p = 2 /\ 16 <= len (p_data p) /\ d = drop (p_data p) 16).
Proof.
  intros h x p pts w x' p' w' Hx Hp Hl E. unfold mixer_mux in E.
  destruct (mux (mx_muxer x) p pts w) as [[m1 p1] [w1 r1]] eqn:E1. inversion E; subst.
  destruct (mux_select p) as [[ty d]|e| |] eqn:ES.
  - destruct (select_shape _ _ _ ES) as (T1 & T2 & T3).
    destruct (mux_ok _ _ _ w _ _ (in_use_wf _ _ Hx) Hp ES (select_range _ _ _ ES)) as (m2 & _ & E2). rewrite E1 in E2.
    destruct (run_plan_any (tag_calls ty d pts) (Ok tt) w) as (w2 & r2 & R1 & _ & R2). rewrite R1 in E2. inversion E2; subst.
    destruct R2 as [(_ & R2 & _)|(R2 & _)]; [|discriminate].
    exists (concat (tag_calls (tag_number (p_type p)) d pts)), d. split; [exact R2|]. split; [exact T2|]. split; [|exact T3].
    apply reads_one; [apply tag_number_range|exact Hp|]. destruct T3 as [->|(_ & T3 & ->)]; [exact Hl|]. rewrite len_drop by lia. lia.
  - rewrite mux_not_ok in E1 by (rewrite ES; discriminate). rewrite ES in E1. discriminate.
  - rewrite mux_not_ok in E1 by (rewrite ES; discriminate). rewrite ES in E1. discriminate.
  - rewrite mux_not_ok in E1 by (rewrite ES; discriminate). rewrite ES in E1. discriminate.
Qed.
Print Assumptions C01_any_success.

Definition ex_pk (ty : Z) (d : bytes) : packet := mkP ty 0 0 0 None d None.
Example C01_example :
  Forall2 (fun q d => payload (fst q) d /\ len d < 2 ^ 24 /\ 0 <= snd q < 2 ^ 32)
    [(ex_pk 0 [23; 1; 0; 0; 0; 9], 4294967295); (ex_pk 1 [175; 1; 33], 0); (ex_pk 2 (frame_header ++ [2; 0; 1; 65]), 16777216)]
    [[23; 1; 0; 0; 0; 9]; [175; 1; 33]; [2; 0; 1; 65]] /\
  let '(_, w, rs) := flv_run (new_mixer, buffer0)
    (mux_ops [(ex_pk 0 [23; 1; 0; 0; 0; 9], 4294967295); (ex_pk 1 [175; 1; 33], 0); (ex_pk 2 (frame_header ++ [2; 0; 1; 65]), 16777216)]) in
  rs = [Ok tt; Ok tt; Ok tt] /\
  w_out w = [9; 0; 0; 6; 255; 255; 255; 255; 0; 0; 0; 23; 1; 0; 0; 0; 9; 0; 0; 0; 17] ++
            [8; 0; 0; 3; 0; 0; 0; 0; 0; 0; 0; 175; 1; 33; 0; 0; 0; 14] ++
            [18; 0; 0; 4; 0; 0; 0; 1; 0; 0; 0; 2; 0; 1; 65; 0; 0; 0; 15].
Proof.
  split; [|vm_compute; split; reflexivity].
  constructor; [|constructor; [|constructor; [|constructor]]]; cbn [fst snd]; (split; [|vm_compute; intuition discriminate]).
  - apply (Pl_av (ex_pk 0 _)). auto.
  - apply (Pl_av (ex_pk 1 _)). auto.
  - apply Pl_meta_rtmp; reflexivity.
Qed.

(** ** C02 *)
(** Bytes 1..3 of a tag. *)
Definition data_size (s : bytes) : Z := be24_val (at_ s 1) (at_ s 2) (at_ s 3).
Lemma data_size_calls ty d pts : 0 <= ty < 256 -> data_size (concat (tag_calls ty d pts)) = len d mod 2 ^ 24.
Proof.
  intros H. unfold tag_calls, hdr11, be32 at 1. cbn [concat app]. unfold data_size, at_, be24_val. cbn [nth Z.to_nat Pos.to_nat Pos.iter_op Nat.add].
  change (Z.to_nat 1) with 1%nat. change (Z.to_nat 2) with 2%nat. change (Z.to_nat 3) with 3%nat. cbn [nth].
  unfold u8. change (2 ^ 24) with 16777216. lia.
Qed.
(** For every payload of 2^24 bytes or more, on every writer that does not fail, Mux returns success and the
    DataSize field is not the payload length. *)
Theorem C02_size_limit_refuted : forall h x p pts d w, in_use h x -> payload p d -> 0 <= pts < 2 ^ 32 -> never_fails w ->
  2 ^ 24 <= len d ->
  exists x' p' w' s, mixer_mux x p pts w = (x', p', (w', Ok tt)) /\ w_out w' = w_out w ++ s /\
    data_size s = len d mod 2 ^ 24 /\ data_size s <> len d.
Proof.
  intros h x p pts d w Hx Hd Hp Hw Hl. destruct (mixer_mux_ok x p pts w d (in_use_wf _ _ Hx) Hp Hd) as (x' & _ & E). rewrite E.
  rewrite run_plan_ok by exact Hw. eexists _, _, _, _. split; [reflexivity|]. split; [reflexivity|].
  rewrite data_size_calls by apply tag_number_range. change (2 ^ 24) with 16777216 in *. split; [reflexivity|]. lia.
Qed.
Print Assumptions C02_size_limit_refuted.
Theorem C02_size_limit_partial : forall h x p pts w x' p' w', in_use h x -> 0 <= pts < 2 ^ 32 -> len (p_data p) < 2 ^ 24 ->
  mixer_mux x p pts w = (x', p', (w', Ok tt)) -> exists s, w_out w' = w_out w ++ s /\ data_size s = len (p_data p') /\ len s = 15 + data_size s.
Proof.
  intros h x p pts w x' p' w' Hx Hp Hl E. unfold mixer_mux in E.
  destruct (mux (mx_muxer x) p pts w) as [[m1 p1] [w1 r1]] eqn:E1. inversion E; subst.
  destruct (mux_select p) as [[ty d]|e| |] eqn:ES.
  - destruct (select_shape _ _ _ ES) as (T1 & T2 & T3).
    destruct (mux_ok _ _ _ w _ _ (in_use_wf _ _ Hx) Hp ES (select_range _ _ _ ES)) as (m2 & _ & E2). rewrite E1 in E2.
    destruct (run_plan_any (tag_calls ty d pts) (Ok tt) w) as (w2 & r2 & R1 & _ & R2). rewrite R1 in E2. inversion E2; subst.
    destruct R2 as [(_ & R2 & _)|(R2 & _)]; [|discriminate].
    exists (concat (tag_calls (tag_number (p_type p)) d pts)). split; [exact R2|]. rewrite data_size_calls by apply tag_number_range.
    cbn [p_data set_data]. change (2 ^ 24) with 16777216 in *. pose proof (len_nonneg d).
    assert (HL : len d < 16777216) by (destruct T3 as [->|(_ & T3 & ->)]; [exact Hl|]; rewrite len_drop by lia; lia).
    rewrite Z.mod_small by lia. split; [reflexivity|].
    cbn [concat tag_calls]. rewrite !len_app, len_be32. unfold hdr11. rewrite !len_app, !len_be32. change (len [0; 0; 0]) with 3. unfold len at 2. cbn [length]. lia.
  - rewrite mux_not_ok in E1 by (rewrite ES; discriminate). rewrite ES in E1. discriminate.
  - rewrite mux_not_ok in E1 by (rewrite ES; discriminate). rewrite ES in E1. discriminate.
  - rewrite mux_not_ok in E1 by (rewrite ES; discriminate). rewrite ES in E1. discriminate.
Qed.
Print Assumptions C02_size_limit_partial.
Lemma bytes_of_len n : 0 <= n -> exists d : bytes, len d = n.
Proof. intros H. exists (repeat 0 (Z.to_nat n)). rewrite len_repeat. apply Z2Nat.id, H. Qed.
Example C02_example : in_use [] new_mixer /\ exists d, payload (ex_pk 0 d) d /\ 2 ^ 24 <= len d.
Proof.
  split; [exists buffer0, buffer0, []; split; [constructor|reflexivity]|].
  destruct (bytes_of_len (2 ^ 24) ltac:(lia)) as [d Hd]. exists d. split; [apply (Pl_av (ex_pk 0 _)); auto|lia].
Qed.

(** ** C03 *)
Theorem C03_header_block : forall h x w tm tc ta, in_use h x -> never_fails w ->
  saved_last (latest sel_meta h) tm -> saved_last (latest sel_avc h) tc -> saved_last (latest sel_aac h) ta ->
  exists x' w' s, set_flv_header x w = (x', (w', Ok tt)) /\
    w_out w' = w_out w ++ flv_signature (existsb sel_avc h) (existsb sel_aac h) ++ s /\ reads_tags s (tm ++ tc ++ ta).
Proof.
  intros h x w tm tc ta Hx Hw Hm Hc Ha. pose proof (in_use_inv _ _ Hx) as HI.
  destruct (set_flv_header_plan h x w HI) as (x' & E). rewrite E, run_plan_ok by exact Hw.
  exists x'. eexists _, (mx_meta x ++ mx_avc x ++ mx_aac x). split; [reflexivity|]. cbn [w_out]. split.
  - f_equal. unfold header_calls. rewrite !concat_app, !concat_cache. cbn [concat]. rewrite app_nil_r. reflexivity.
  - apply reads_app; [exact (mi_meta _ _ HI _ Hm)|]. apply reads_app; [exact (mi_avc _ _ HI _ Hc)|exact (mi_aac _ _ HI _ Ha)].
Qed.
Print Assumptions C03_header_block.
(** The flags, whatever was saved, also when saving failed. *)
Theorem C03_header_flags : forall h x w, in_use h x -> never_fails w ->
  exists x' w' s, set_flv_header x w = (x', (w', Ok tt)) /\
    w_out w' = w_out w ++ flv_signature (existsb sel_avc h) (existsb sel_aac h) ++ s.
Proof.
  intros h x w Hx Hw. destruct (set_flv_header_plan h x w (in_use_inv _ _ Hx)) as (x' & E). rewrite E, run_plan_ok by exact Hw.
  eexists _, _, _. split; reflexivity.
Qed.
Print Assumptions C03_header_flags.
Definition ex_md : list (bytes * tree) := [(str "width", TFloat 0); (str "title", TStr (str "x"))].
Definition ex_hist : list flv_op :=
  [FSaveAVC (ex_pk 0 [1]); FSaveMeta []; FMux (ex_pk 1 [9; 9]) 5; FSaveAAC (ex_pk 1 [175; 0; 18; 16]); FHeader; FSaveMeta ex_md; FSaveAVC (ex_pk 0 [23; 0; 0; 0; 0; 1])].
Example C03_example : exists x, in_use ex_hist x /\
  saved_last (latest sel_meta ex_hist) [tag_for 18 0 ([2; 0; 10] ++ str "onMetaData" ++ wire0 (TObj ex_md))] /\
  saved_last (latest sel_avc ex_hist) [tag_for 9 0 [23; 0; 0; 0; 0; 1]] /\
  saved_last (latest sel_aac ex_hist) [tag_for 8 0 [175; 0; 18; 16]] /\
  existsb sel_avc ex_hist = true /\ existsb sel_aac ex_hist = true.
Proof.
  exists (fst (fst (flv_run (new_mixer, buffer0) ex_hist))). split.
  - exists buffer0, (snd (fst (flv_run (new_mixer, buffer0) ex_hist))), (snd (flv_run (new_mixer, buffer0) ex_hist)). split.
    + repeat constructor; cbn; lia.
    + destruct (flv_run (new_mixer, buffer0) ex_hist) as [[? ?] ?]; reflexivity.
  - split; [|split; [|split; [|split]]]; try reflexivity; cbn [latest rev ex_hist app find sel_meta sel_avc sel_aac saved_last].
    + apply Sa_meta; [|reflexivity|vm_compute; reflexivity]. cbn [ok0 ex_md map fst snd all_of].
      split; [repeat constructor; cbn; intuition discriminate|].
      repeat split; try (apply is_bytes_dec; vm_compute; reflexivity); try (vm_compute; intuition discriminate).
    + apply (Sa_avc (ex_pk 0 _)); [apply Pl_av; auto|vm_compute; reflexivity].
    + apply (Sa_aac (ex_pk 1 _)); [apply Pl_av; auto|vm_compute; reflexivity].
Qed.

(** When saving fails, the header block has no tag for what could not be saved, nor an older one. *)
Theorem C03_failed_save : forall h o x w0 x1 w1 e w tm tc ta, in_use h x -> flv_step (x, w0) o = (x1, w1, Err e) ->
  sel_meta o = true \/ sel_avc o = true \/ sel_aac o = true -> never_fails w ->
  saved_last (latest sel_meta h) tm -> saved_last (latest sel_avc h) tc -> saved_last (latest sel_aac h) ta ->
  exists x' w' s, set_flv_header x1 w = (x', (w', Ok tt)) /\
    w_out w' = w_out w ++ flv_signature (existsb sel_avc (h ++ [o])) (existsb sel_aac (h ++ [o])) ++ s /\
    reads_tags s ((if sel_meta o then [] else tm) ++ (if sel_avc o then [] else tc) ++ (if sel_aac o then [] else ta)).
Proof.
  intros h o x w0 x1 w1 e w tm tc ta Hx Ho Hs Hw Hm Hc Ha. pose proof (in_use_inv _ _ Hx) as HI.
  assert (HI1 : MInv (h ++ [o]) x1) by (apply (minv_step h x w0 o x1 w1 (Err e)); [exact HI|destruct o; cbn in *; intuition discriminate|exact Ho]).
  destruct (set_flv_header_plan (h ++ [o]) x1 w HI1) as (x' & E). rewrite E, run_plan_ok by exact Hw.
  exists x'. eexists _, (mx_meta x1 ++ mx_avc x1 ++ mx_aac x1). split; [reflexivity|]. cbn [w_out]. split.
  - f_equal. unfold header_calls. rewrite !concat_app, !concat_cache. cbn [concat]. rewrite app_nil_r. reflexivity.
  - assert (R0 : reads_tags [] []) by constructor.
    pose proof (mi_meta _ _ HI _ Hm) as Rm. pose proof (mi_avc _ _ HI _ Hc) as Rc. pose proof (mi_aac _ _ HI _ Ha) as Ra.
    assert (MX : forall p, match mux (mx_muxer x) p 0 buffer0 with (_, _, (w, Err _)) => w_out w = [] | _ => True end).
    { intros p. unfold mux. destruct (mux_select p) as [[ty data]|e0| |]; try exact I; reflexivity. }
    destruct o as [md|p|p|p pts| |wn]; cbn [sel_meta sel_avc sel_aac flv_step] in *; try (intuition discriminate).
    + unfold save_metadata in Ho. destruct (mx_metadata _ _) as [m [b|e0| |]]; inversion Ho; subst; cbn [mx_meta mx_avc mx_aac]. apply reads_app; [exact R0|]. apply reads_app; assumption.
    + unfold save_avc_header in Ho. specialize (MX p). destruct (mux _ _ _ _) as [[m p'] [wm [u|e0| |]]]; inversion Ho; subst; cbn [mx_meta mx_avc mx_aac]. rewrite MX. apply reads_app; [exact Rm|]. apply reads_app; assumption.
    + unfold save_aac_header in Ho. specialize (MX p). destruct (mux _ _ _ _) as [[m p'] [wm [u|e0| |]]]; inversion Ho; subst; cbn [mx_meta mx_avc mx_aac]. rewrite MX. apply reads_app; [exact Rm|]. apply reads_app; assumption.
Qed.
Print Assumptions C03_failed_save.
Example C03_failed_ex : exists x1 w1 e, flv_step (fst (flv_run (new_mixer, buffer0) ex_hist)) (FSaveAVC (ex_pk 7 [1])) = (x1, w1, Err e).
Proof. eexists _, _, _. vm_compute. reflexivity. Qed.
Example C03_failed_meta_ex : exists x1 w1 e, flv_step (fst (flv_run (new_mixer, buffer0) ex_hist)) (FSaveMeta [(str "f", TOther)]) = (x1, w1, Err e).
Proof. eexists _, _, _. vm_compute. reflexivity. Qed.

(** ** C04 *)
Lemma at_0 a l : at_ (a :: l) 0 = a. Proof. reflexivity. Qed.
Lemma len_S (a : Z) l : len (a :: l) = 1 + len l. Proof. apply len_cons. Qed.
Theorem C04_demux_exact : forall p, is_bytes (p_data p) ->
  match demux p with
  | (p', Ok _) => exists v a m, demuxes (p_type p) (p_data p) v a m /\
      p' = mkP (p_type p) (p_ts p) (p_base p) (p_stream p) (Some (mkH (Some v) (Some a))) (p_data p) (Some m)
  | (p', Err _) => p' = p /\ forall v a m, ~ demuxes (p_type p) (p_data p) v a m
  | (_, Panic) | (_, OutOfFuel) => False
  end.
Proof.
  intros [ty ts bs st hd data md] HB. cbn [p_data] in HB. unfold demux, parse_media_tag_header. cbn [p_data p_type].
  change PktVideo with 0. change PktAudio with 1. change PktMetadata with 2.
  destruct (Z.eqb_spec ty 0) as [->|E0]; [|destruct (Z.eqb_spec ty 1) as [->|E1]; [|destruct (Z.eqb_spec ty 2) as [->|E2]]].
  - unfold parse_video. destruct (len data <? 5) eqn:EL.
    + split; [reflexivity|]. intros v a m H. inversion H; subst; try lia; rewrite ?len_S in *; pose proof (len_nonneg m); lia.
    + do 5 (destruct data as [|? data]; [rewrite ?len_S in EL; cbn in EL; discriminate|]).
      inversion HB as [|? ? B0 HB1]; inversion HB1 as [|? ? B1 HB2]; inversion HB2 as [|? ? B2 HB3]; inversion HB3 as [|? ? B3 HB4]; inversion HB4 as [|? ? B4 HB5]; subst.
      clear HB HB1 HB2 HB3 HB4. change (at_ (z :: z0 :: z1 :: z2 :: z3 :: data) 0) with z. rewrite shr4, land15 by assumption.
      cbn [t_frame t_format t_rate t_size t_stype t_aactype t_codec t_avctype t_cts tag0].
      change (at_ (z :: z0 :: z1 :: z2 :: z3 :: data) 1) with z0. change (at_ (z :: z0 :: z1 :: z2 :: z3 :: data) 2) with z1.
      change (at_ (z :: z0 :: z1 :: z2 :: z3 :: data) 3) with z2. change (at_ (z :: z0 :: z1 :: z2 :: z3 :: data) 4) with z3.
      rewrite cts3 by assumption. change (0 * 16777216 + be24_val z1 z2 z3) with (be24_val z1 z2 z3).
      assert (HV : i32 (be24_val z1 z2 z3) = be24_val z1 z2 z3) by (unfold be24_val, byte, i32 in *; lia). rewrite HV.
      change InterFrame with 2. change KeyFrame with 1. rewrite !len_S. pose proof (len_nonneg data).
      destruct ((z / 16 =? 2) || (z / 16 =? 1)) eqn:EK.
      * replace (1 + (1 + (1 + (1 + (1 + len data)))) <? 5) with false by lia.
        eexists _, _, _. split; [|reflexivity]. apply Dx_video; [reflexivity|lia].
      * replace (1 + (1 + (1 + (1 + (1 + len data)))) <? 1) with false by lia.
        eexists _, _, _. split; [|reflexivity]. unfold tag_video. cbn [t_frame t_avctype t_codec t_cts].
        change KeyFrame with 1. change InterFrame with 2. replace (z / 16 =? 1) with false by lia. replace (z / 16 =? 2) with false by lia.
        cbn [andb]. apply Dx_other; [reflexivity|lia|lia|]. change (drop (z :: z0 :: z1 :: z2 :: z3 :: data) 1) with (z0 :: z1 :: z2 :: z3 :: data). rewrite !len_S. lia.
  - unfold parse_audio. destruct (len data <? 2) eqn:EL.
    + split; [reflexivity|]. intros v a m H. inversion H; subst; try lia; rewrite ?len_S in *.
      * pose proof (len_nonneg m). lia.
      * destruct m; [congruence|]. rewrite len_S in EL. pose proof (len_nonneg m). lia.
    + do 2 (destruct data as [|? data]; [rewrite ?len_S in EL; cbn in EL; discriminate|]).
      inversion HB as [|? ? B0 HB1]; inversion HB1 as [|? ? B1 HB2]; subst.
      change (at_ (z :: z0 :: data) 0) with z. change (at_ (z :: z0 :: data) 1) with z0. rewrite shr4 by assumption.
      cbn [t_frame t_format t_rate t_size t_stype t_aactype t_codec t_avctype t_cts tag0].
      change SoundAAC with 10. change SoundMP3 with 2. rewrite !len_S. pose proof (len_nonneg data).
      destruct (Z.eqb_spec (z / 16) 10) as [EA|EA]; [|destruct (Z.eqb_spec (z / 16) 2) as [EM|EM]].
      * replace (1 + (1 + len data) <? 2) with false by lia. eexists _, _, _. split; [|reflexivity].
        unfold tag_audio. cbn [t_format t_aactype]. change SoundAAC with 10. change SoundMP3 with 2. rewrite EA. apply Dx_aac; [reflexivity|exact EA].
      * replace (1 + (1 + len data) <? 1) with false by lia. eexists _, _, _. split; [|reflexivity].
        unfold tag_audio. cbn [t_format t_aactype]. change SoundAAC with 10. change SoundMP3 with 2. rewrite EM. apply Dx_mp3; [reflexivity|exact EM|discriminate].
      * split; [reflexivity|]. intros v a m H0. inversion H0; subst; lia.
  - replace (len data <? 0) with false by (pose proof (len_nonneg data); lia). eexists _, _, _. split; [|reflexivity]. apply Dx_meta. reflexivity.
  - split; [reflexivity|]. intros v a m H. inversion H; subst; lia.
Qed.
Print Assumptions C04_demux_exact.
Example C04_example : is_bytes [39; 1; 0; 0; 80; 7; 7] /\
  demux (mkP 0 1 2 3 None [39; 1; 0; 0; 80; 7; 7] None) =
  (mkP 0 1 2 3 (Some (mkH (Some (mkVH false true false false true 7 80)) (Some (mkAH 0 0 false false true)))) [39; 1; 0; 0; 80; 7; 7] (Some [7; 7]), Ok tt).
Proof. split; [apply is_bytes_dec; reflexivity|reflexivity]. Qed.

(** ** C05 *)
(** Two's complement value of three bytes. *)
Definition si24 (a b c : Z) : Z := if be24_val a b c <? 8388608 then be24_val a b c else be24_val a b c - 16777216.
Definition cts_of (p : packet) : option Z := match p_header p with Some (mkH (Some v) _) => Some (v_cts v) | _ => None end.
Lemma demux_cts b0 a b c m ts bs st : byte b0 -> byte a -> byte b -> byte c -> b0 / 16 = 1 \/ b0 / 16 = 2 ->
  exists p', demux (mkP 0 ts bs st None (b0 :: 1 :: a :: b :: c :: m) None) = (p', Ok tt) /\ cts_of p' = Some (be24_val a b c).
Proof.
  intros B0 B1 B2 B3 Hf. unfold demux, parse_media_tag_header, parse_video. cbn [p_data p_type]. change (0 =? PktVideo) with true. cbn match.
  rewrite !len_S. pose proof (len_nonneg m). replace (1 + (1 + (1 + (1 + (1 + len m)))) <? 5) with false by lia.
  change (at_ (b0 :: 1 :: a :: b :: c :: m) 0) with b0. change (at_ (b0 :: 1 :: a :: b :: c :: m) 1) with 1. change (at_ (b0 :: 1 :: a :: b :: c :: m) 2) with a.
  change (at_ (b0 :: 1 :: a :: b :: c :: m) 3) with b. change (at_ (b0 :: 1 :: a :: b :: c :: m) 4) with c.
  cbn [t_frame t_format t_rate t_size t_stype t_aactype t_codec t_avctype t_cts tag0]. rewrite shr4, cts3 by assumption. change InterFrame with 2. change KeyFrame with 1.
  replace ((b0 / 16 =? 2) || (b0 / 16 =? 1)) with true by lia. rewrite ?len_S. replace (1 + (1 + (1 + (1 + (1 + len m)))) <? 5) with false by lia.
  eexists. split; [reflexivity|]. cbn. f_equal. unfold be24_val, i32, byte in *. lia.
Qed.
(** For every AVC NALU packet of a key or inter frame whose composition time is negative. *)
Theorem C05_composition_time_refuted : forall b0 a b c m ts bs st, byte b0 -> byte a -> byte b -> byte c -> b0 / 16 = 1 \/ b0 / 16 = 2 ->
  si24 a b c < 0 ->
  exists p' v, demux (mkP 0 ts bs st None (b0 :: 1 :: a :: b :: c :: m) None) = (p', Ok tt) /\ cts_of p' = Some v /\
    v = si24 a b c + 16777216 /\ v <> si24 a b c.
Proof.
  intros b0 a b c m ts bs st B0 B1 B2 B3 Hf Hn. destruct (demux_cts b0 a b c m ts bs st B0 B1 B2 B3 Hf) as (p' & E1 & E2).
  exists p', (be24_val a b c). split; [exact E1|]. split; [exact E2|]. unfold si24 in *. unfold be24_val, byte in *.
  destruct (a * 65536 + b * 256 + c <? 8388608) eqn:E; lia.
Qed.
Print Assumptions C05_composition_time_refuted.
Theorem C05_composition_time_partial : forall b0 a b c m ts bs st, byte b0 -> byte a -> byte b -> byte c -> b0 / 16 = 1 \/ b0 / 16 = 2 ->
  0 <= si24 a b c ->
  exists p', demux (mkP 0 ts bs st None (b0 :: 1 :: a :: b :: c :: m) None) = (p', Ok tt) /\ cts_of p' = Some (si24 a b c).
Proof.
  intros b0 a b c m ts bs st B0 B1 B2 B3 Hf Hn. destruct (demux_cts b0 a b c m ts bs st B0 B1 B2 B3 Hf) as (p' & E1 & E2).
  exists p'. split; [exact E1|]. rewrite E2. f_equal. unfold si24 in *. unfold be24_val, byte in *.
  destruct (a * 65536 + b * 256 + c <? 8388608) eqn:E; lia.
Qed.
Print Assumptions C05_composition_time_partial.
Example C05_example : si24 255 255 176 = -80 /\ si24 0 0 80 = 80 /\ byte 255 /\ byte 176 /\ byte 39 /\ 39 / 16 = 2.
Proof. repeat split; vm_compute; intuition discriminate. Qed.

(** ** C06 *)
(** Parsing a key or inter NALU packet with a Tag whose composition time is not a multiple of 256 gives another
    composition time than parsing it with a fresh Tag. *)
Theorem C06_parse_depends_on_tag_refuted : forall t b0 a b c m, byte b0 -> byte a -> byte b -> byte c -> b0 / 16 = 1 \/ b0 / 16 = 2 ->
  t_cts t mod 256 <> 0 ->
  let data := b0 :: 1 :: a :: b :: c :: m in
  snd (parse_media_tag_header t data 0) = Ok 5 /\ snd (parse_media_tag_header tag0 data 0) = Ok 5 /\
  v_cts (tag_video (fst (parse_media_tag_header t data 0))) <> v_cts (tag_video (fst (parse_media_tag_header tag0 data 0))).
Proof.
  intros t b0 a b c m B0 B1 B2 B3 Hf Hc data. unfold parse_media_tag_header, parse_video. change (0 =? PktVideo) with true. cbn match.
  unfold data. rewrite !len_S. pose proof (len_nonneg m). replace (1 + (1 + (1 + (1 + (1 + len m)))) <? 5) with false by lia.
  change (at_ (b0 :: 1 :: a :: b :: c :: m) 0) with b0. change (at_ (b0 :: 1 :: a :: b :: c :: m) 1) with 1. change (at_ (b0 :: 1 :: a :: b :: c :: m) 2) with a.
  change (at_ (b0 :: 1 :: a :: b :: c :: m) 3) with b. change (at_ (b0 :: 1 :: a :: b :: c :: m) 4) with c.
  cbn [t_frame t_format t_rate t_size t_stype t_aactype t_codec t_avctype t_cts tag0]. rewrite shr4, !cts3 by assumption. change InterFrame with 2. change KeyFrame with 1.
  replace ((b0 / 16 =? 2) || (b0 / 16 =? 1)) with true by lia. cbn [fst snd]. split; [reflexivity|]. split; [reflexivity|].
  unfold tag_video. cbn [v_cts t_avctype t_cts]. change (1 =? AvcNalu) with true. cbn match. unfold be24_val, i32, byte in *. lia.
Qed.
Print Assumptions C06_parse_depends_on_tag_refuted.
(** Every reachable source of such a Tag: parsing any NALU packet whose composition time is not a multiple of 256. *)
Example C06_example : exists t, parse_media_tag_header tag0 [39; 1; 0; 0; 80] 0 = (t, Ok 5) /\ t_cts t mod 256 <> 0.
Proof. eexists. split; [reflexivity|]. vm_compute. discriminate. Qed.
(** What does not depend on the Tag: the outcome; for video everything but the composition time, which is also the
    same when the earlier ones agree modulo 256 and the packet is a key or inter frame; for AAC everything; for
    MP3 everything but the (meaningless) AAC packet type. *)
Theorem C06_parse_depends_on_tag_partial : forall t t' data ty, is_bytes data ->
  let '(u, r) := parse_media_tag_header t data ty in
  let '(u', r') := parse_media_tag_header t' data ty in
  r = r' /\
  (forall n, r = Ok n -> ty = 0 ->
     let v := tag_video u in let v' := tag_video u' in
     v_key v = v_key v' /\ v_inter v = v_inter v' /\ v_seq v = v_seq v' /\ v_eos v = v_eos v' /\ v_avc v = v_avc v' /\ v_codec v = v_codec v' /\
     (t_cts t mod 256 = t_cts t' mod 256 -> v_key v = true \/ v_inter v = true -> v_cts v = v_cts v')) /\
  (forall n, r = Ok n -> ty = 1 ->
     let a := tag_audio u in let a' := tag_audio u' in
     a_format a = a_format a' /\ a_aac a = a_aac a' /\ a_mp3 a = a_mp3 a' /\ (a_aac a = true -> a = a')).
Proof.
  intros t t' data ty HB. unfold parse_media_tag_header. change PktVideo with 0. change PktAudio with 1. change PktMetadata with 2.
  destruct (Z.eqb_spec ty 0) as [->|E0]; [|destruct (Z.eqb_spec ty 1) as [->|E1]; [|destruct (Z.eqb_spec ty 2) as [->|E2]]].
  - unfold parse_video. destruct (len data <? 5) eqn:EL; [split; [reflexivity|]; split; intros; discriminate|].
    assert (HA : forall i, 0 <= i < 5 -> byte (at_ data i)).
    { intros i Hi. unfold at_. apply (proj1 (Forall_forall _ _) HB). apply nth_In. unfold len in EL. lia. }
    cbn [t_frame t_format t_rate t_size t_stype t_aactype t_codec t_avctype t_cts]. rewrite !cts3 by (apply HA; lia).
    change InterFrame with 2. change KeyFrame with 1.
    destruct ((Z.shiftr (at_ data 0) 4 =? 2) || (Z.shiftr (at_ data 0) 4 =? 1)) eqn:EK.
    + split; [reflexivity|]. split; [|intros; lia]. intros n _ _. unfold tag_video. cbn [v_key v_inter v_seq v_eos v_avc v_codec v_cts t_frame t_avctype t_codec t_cts].
      repeat split. intros HC _. destruct (at_ data 1 =? AvcNalu); [|reflexivity].
      pose proof (HA 2 ltac:(lia)). pose proof (HA 3 ltac:(lia)). pose proof (HA 4 ltac:(lia)). unfold be24_val, i32, byte in *.
      clear - HC. set (x := t_cts t) in *. set (y := t_cts t') in *. clearbody x y.
      rewrite (Z.div_mod x 256), (Z.div_mod y 256), HC by lia. lia.
    + split; [reflexivity|]. split; [|intros; lia]. intros n _ _. unfold tag_video. cbn [v_key v_inter v_seq v_eos v_avc v_codec v_cts t_frame t_avctype t_codec t_cts].
      change KeyFrame with 1. change InterFrame with 2. apply orb_false_elim in EK as [K1 K2]. rewrite K1, K2. cbn [andb]. repeat split. intros _ [H|H]; discriminate.
  - unfold parse_audio. destruct (len data <? 2) eqn:EL; [split; [reflexivity|]; split; intros; discriminate|].
    cbn [t_frame t_format t_rate t_size t_stype t_aactype t_codec t_avctype t_cts].
    destruct (Z.shiftr (at_ data 0) 4 =? SoundAAC) eqn:EA; [|destruct (Z.shiftr (at_ data 0) 4 =? SoundMP3) eqn:EM].
    + split; [reflexivity|]. split; [intros; lia|]. intros. unfold tag_audio. cbn. repeat split.
    + split; [reflexivity|]. split; [intros; lia|]. intros. unfold tag_audio. cbn [t_format t_aactype a_format a_aac a_mp3]. repeat split.
      rewrite EA. discriminate.
    + split; [reflexivity|]. split; intros; discriminate.
  - split; [reflexivity|]. split; intros; lia.
  - split; [reflexivity|]. split; intros; lia.
Qed.
Print Assumptions C06_parse_depends_on_tag_partial.

(** ** C07 *)
(** [fails_at w k j]: the j-th next call of the writer is its first failing one, and accepts k bytes. *)
Definition fails_at (w : writer) (j k : nat) : Prop :=
  (forall i, (i < j)%nat -> w_script w (w_calls w + i)%nat = None) /\ w_script w (w_calls w + j)%nat = Some k.
Theorem C07_mux_writer_failure : forall h x p pts d w, in_use h x -> payload p d -> 0 <= pts < 2 ^ 32 ->
  exists s, (forall w0, never_fails w0 -> exists x0 p0 w0', mixer_mux x p pts w0 = (x0, p0, (w0', Ok tt)) /\ w_out w0' = w_out w0 ++ s) /\
    exists x' p' w' r, mixer_mux x p pts w = (x', p', (w', r)) /\
      ((r = Ok tt /\ w_out w' = w_out w ++ s /\ forall j k, (j < 3)%nat -> ~ fails_at w j k) \/
       (r = Err EWrite /\ exists j k pre post, (j < 3)%nat /\ fails_at w j k /\ s = pre ++ post /\ w_out w' = w_out w ++ pre)).
Proof.
  intros h x p pts d w Hx Hd Hp. exists (concat (tag_calls (tag_number (p_type p)) d pts)). split.
  - intros w0 Hw. destruct (mixer_mux_ok x p pts w0 d (in_use_wf _ _ Hx) Hp Hd) as (x' & _ & E). rewrite E.
    rewrite run_plan_ok by exact Hw. eexists _, _, _. split; reflexivity.
  - destruct (mixer_mux_ok x p pts w d (in_use_wf _ _ Hx) Hp Hd) as (x' & _ & E). rewrite E.
    destruct (run_plan_any (tag_calls (tag_number (p_type p)) d pts) (Ok tt) w) as (w1 & r1 & R1 & _ & R2). rewrite R1.
    eexists _, _, _, _. split; [reflexivity|]. destruct R2 as [(-> & R2 & R3)|(-> & j & k & J1 & J2 & J3 & J4)].
    + left. split; [reflexivity|]. split; [exact R2|]. intros j k Hj [_ HF]. rewrite (R3 j Hj) in HF. discriminate.
    + right. split; [reflexivity|]. destruct (plan_prefix (tag_calls (tag_number (p_type p)) d pts) j k J1) as [post HP].
      exists j, k, (concat (firstn j (tag_calls (tag_number (p_type p)) d pts)) ++ firstn k (nth j (tag_calls (tag_number (p_type p)) d pts) [])), post.
      split; [exact J1|]. split; [split; assumption|]. split; [exact HP|exact J4].
Qed.
Print Assumptions C07_mux_writer_failure.
(** Packets Mux rejects: nothing is written. *)
Theorem C07_rejected_writes_nothing : forall h x p pts w, in_use h x -> (forall y, mux_select p <> Ok y) ->
  exists x' p' r, mixer_mux x p pts w = (x', p', (w, r)) /\ r <> Ok tt.
Proof.
  intros h x p pts w _ H. unfold mixer_mux. rewrite mux_not_ok by exact H. eexists _, _, _. split; [reflexivity|].
  destruct (mux_select p) eqn:E; try discriminate. elim (H _ eq_refl).
Qed.
Print Assumptions C07_rejected_writes_nothing.
Example C07_example : exists w, fails_at w 1 2 /\
  w_out (fst (snd (mixer_mux new_mixer (ex_pk 0 [1; 2; 3]) 7 w))) = [9; 0; 0; 3; 0; 0; 7; 0; 0; 0; 0; 1; 2].
Proof.
  exists (mkW [] 0 (fun n => if Nat.eqb n 1 then Some 2%nat else None)). split; [|vm_compute; reflexivity].
  split; [|reflexivity]. intros i Hi. replace i with 0%nat by lia. reflexivity.
Qed.

(** ** C99 *)
Theorem C99_header_writer_failure : forall h x w, in_use h x ->
  exists s, (forall w0, never_fails w0 -> exists x0 w0', set_flv_header x w0 = (x0, (w0', Ok tt)) /\ w_out w0' = w_out w0 ++ s) /\
    exists x' w' r out rest, set_flv_header x w = (x', (w', r)) /\ w_out w' = w_out w ++ out /\ s = out ++ rest /\
      ((r = Ok tt /\ rest = [] /\ ~ failed w w') \/ (r = Err EWrite /\ failed w w')).
Proof.
  intros h x w Hx. pose proof (in_use_inv _ _ Hx) as HI. set (calls := header_calls (existsb sel_avc h) (existsb sel_aac h) x).
  exists (concat calls). split.
  - intros w0 Hw. destruct (set_flv_header_plan h x w0 HI) as (x' & E). rewrite E, run_plan_ok by exact Hw. eexists _, _. split; reflexivity.
  - destruct (set_flv_header_plan h x w HI) as (x' & E). rewrite E. fold calls. destruct (run_plan calls (Ok tt) w) as [w1 r1] eqn:R1.
    destruct (run_plan_outcome _ _ _ _ _ R1) as (out & rest & R2). eexists _, _, _, out, rest. split; [reflexivity|exact R2].
Qed.
Print Assumptions C99_header_writer_failure.
Example C99_example : exists w, fails_at w 0 5 /\ w_out (fst (snd (set_flv_header new_mixer w))) = [70; 76; 86; 1; 0].
Proof.
  exists (mkW [] 0 (fun n => if Nat.eqb n 0 then Some 5%nat else None)). split; [|vm_compute; reflexivity].
  split; [|reflexivity]. intros i Hi. lia.
Qed.
