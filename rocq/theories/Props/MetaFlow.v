(** Property C204: metadata arrive as they were published. *)
From Coq Require Import String.
From Verif Require Import Base.Go Base.GoFacts Base.IO Proofs.IOFacts Model.AmfTypes Model.Amf3 Model.Amf0 Model.Metadata Model.Packet Model.Flv
  Spec.Amf Spec.Gop Spec.Flv Proofs.AmfFacts Proofs.AmfContr Proofs.Amf0Enc Proofs.Amf0More Proofs.Metadata Proofs.Flv Props.Amf0 Props.Metadata Props.Flv.
Import ListNotations.
Local Open Scope list_scope.
Local Open Scope Z_scope.

(** The data of a metadata packet: what EncodeBatch writes for a name and values, or what AddMetaHeader makes of that. *)
Definition publishes (name : bytes) (ts : list tree) (data : bytes) : Prop :=
  exists w d, encode_batch0 (TStr name :: ts) buffer0 = (w, Ok tt) /\ (data = w_out w \/ snd (add_meta_header decode0 d (w_out w)) = Ok data).
(** DecodeBatch of the data reads these values, from any reader that delivers the data in one piece (except that bytes.Reader
    must not end with an empty text, C57). *)
Definition decodes_to (data : bytes) (ts : list tree) : Prop :=
  forall d e, d_r d = cont data e -> e_zero e = false \/ ends_empty (last ts TNil) = false ->
  exists d' vs, decode_batch0 d = (d', (vs, batch_end e)) /\ r_rest (d_r d') = [] /\ Forall2 (unfolds (d_heap d')) vs (map img0 ts).

Lemma batch_decodes ts : Forall ok0 ts -> decodes_to (concat (map wire0 ts)) ts.
Proof.
  intros H d e Hr Hl. destruct (C59_decode_batch_inverts_encode_batch ts buffer0 H (fun _ => eq_refl)) as (w & enc & E & EW & HD).
  destruct (emits_run _ _ _ buffer0 (encode_batch0_emits ts H) (fun _ => eq_refl)) as [n E']. rewrite E in E'. injection E' as ->. cbn [w_out buffer0 app] in EW. subst enc.
  apply HD; [exact Hr|]. destruct Hl as [Hl|Hl]; [left; exact Hl|right; intros t <-; exact Hl].
Qed.
Lemma publishes_data name ts data : 0 < len name < 65536 -> name <> str "@setDataFrame" -> Forall ok0 (TStr name :: ts) -> publishes name ts data ->
  data = concat (map wire0 (TStr name :: ts)) \/ data = frame ++ concat (map wire0 (TStr name :: ts)).
Proof.
  intros Hn Hs HO (w & d & E & HD). destruct (emits_run _ _ _ buffer0 (encode_batch0_emits _ HO) (fun _ => eq_refl)) as [n E']. rewrite E in E'. injection E' as ->. cbn [w_out] in HD. change (w_out buffer0 ++ ?l) with l in HD.
  destruct HD as [HD|HD]; [left; exact HD|]. destruct (add_meta_header decode0 d _) as [d1 r] eqn:EA in HD. cbn [snd] in HD. subst r.
  destruct (C74_add_meta_header_general _ _ _ _ _ EA) as [X _]. exact X.
Qed.
Lemma name_wire name ts : len name < 65536 -> concat (map wire0 (TStr name :: ts)) = 2 :: be16 (len name) ++ name ++ concat (map wire0 ts).
Proof. intros H. cbn [map concat wire0]. replace (len name <=? 65535) with true by lia. unfold wire_utf8. cbn [app]. rewrite <- app_assoc. reflexivity. Qed.

(** Whoever publishes metadata through Mux of an FLV Mixer with any history: the tag has the name and the values, without the
    command, and DecodeBatch reads them. *)
Theorem C204_relayed : forall h x name ts data p pts w, in_use h x -> 0 < len name < 65536 -> name <> str "@setDataFrame" -> Forall ok0 (TStr name :: ts) ->
  publishes name ts data -> p_type p = 2 -> p_data p = data -> len data < 2 ^ 24 -> 0 <= pts < 2 ^ 32 -> never_fails w ->
  exists x' p' w' out d, mixer_mux x p pts w = (x', p', (w', Ok tt)) /\ w_out w' = w_out w ++ out /\ reads_tags out [tag_for 18 pts d] /\ decodes_to d (TStr name :: ts).
Proof.
  intros h x name ts data p pts w Hx Hn Hs HO HP HT HD HL Hp Hw.
  assert (PL : payload p (concat (map wire0 (TStr name :: ts))) /\ len (concat (map wire0 (TStr name :: ts))) < 2 ^ 24).
  { destruct (publishes_data _ _ _ Hn Hs HO HP) as [E|E].
    - split; [|rewrite <- E; exact HL]. rewrite <- E, <- HD. eapply Pl_meta; [exact HT|exact Hn|exact Hs|]. rewrite HD, E. apply name_wire. lia.
    - split; [apply Pl_meta_rtmp; [exact HT|rewrite HD, E; reflexivity]|]. rewrite E, len_app in HL. pose proof (len_nonneg frame). lia. }
  destruct PL as [PL HLd]. destruct (C01_mux_succeeds h x p pts _ w Hx PL Hp Hw) as (x' & p' & w' & E & _).
  destruct (C01_flv_framing h x [(p, pts)] [concat (map wire0 (TStr name :: ts))] w x' w' [Ok tt] Hx) as (s & EW & ER).
  { constructor; [cbn [fst snd]; auto|constructor]. } { cbn [mux_ops map flv_run flv_step fst snd]. rewrite E. reflexivity. } { repeat constructor. }
  exists x', p', w', s, (concat (map wire0 (TStr name :: ts))). split; [exact E|]. split; [exact EW|]. split; [|apply batch_decodes, HO].
  cbn [combine map fst snd] in ER. rewrite HT in ER. exact ER.
Qed.
Print Assumptions C204_relayed.
(** Metadata saved for the file header: the first tag behind it. *)
Theorem C204_saved : forall h x md w tc ta, in_use h x -> latest sel_meta h = Some (FSaveMeta md) -> ok0 (TObj md) -> len (wire0 (TObj md)) < 2 ^ 24 - 13 -> never_fails w ->
  saved_last (latest sel_avc h) tc -> saved_last (latest sel_aac h) ta ->
  exists x' w' s d, set_flv_header x w = (x', (w', Ok tt)) /\ w_out w' = w_out w ++ flv_signature (existsb sel_avc h) (existsb sel_aac h) ++ s /\
    reads_tags s (tag_for 18 0 d :: tc ++ ta) /\ decodes_to d [TStr (str "onMetaData"); TObj md].
Proof.
  intros h x md w tc ta Hx HM HO HL Hw Hc Ha.
  destruct (C03_header_block h x w [tag_for 18 0 ([2; 0; 10] ++ str "onMetaData" ++ wire0 (TObj md))] tc ta Hx Hw) as (x' & w' & s & E & EW & ER); try assumption.
  { rewrite HM. cbn [saved_last]. apply Sa_meta; [exact HO|reflexivity|exact HL]. }
  exists x', w', s. eexists. split; [exact E|]. split; [exact EW|]. split; [exact ER|].
  assert (HF : Forall ok0 [TStr (str "onMetaData"); TObj md]). { constructor; [|constructor; [exact HO|constructor]]. vm_compute. repeat split; try congruence. repeat constructor; intuition congruence. }
  pose proof (batch_decodes _ HF) as B. rewrite name_wire in B by (vm_compute; reflexivity). cbn [map concat] in B. rewrite app_nil_r in B. exact B.
Qed.
Print Assumptions C204_saved.
(** Published with and without the command; the values come back from a bytes.Reader. *)
Example C204_example : let ts := [TObj [(str "width", TFloat 0); (str "title", TStr (str "x"))]] in
  Forall ok0 (TStr (str "onMetaData") :: ts) /\
  (exists data, publishes (str "onMetaData") ts data /\ len data = 60) /\ (exists data, publishes (str "onMetaData") ts data /\ len data = 44) /\ ends_empty (last ts TNil) = false.
Proof.
  cbv zeta. split.
  { constructor; [|constructor; [|constructor]]; [vm_compute; repeat split; try congruence; repeat constructor; intuition congruence|].
    cbn [ok0 map fst snd all_of]. split; [repeat constructor; cbn; intuition discriminate|]. repeat split; try (apply is_bytes_dec; vm_compute; reflexivity); try (vm_compute; intuition discriminate). }
  split; [|split; [|reflexivity]].
  - eexists. split; [eexists _, (fresh (bytes_reader [])); split; [vm_compute; reflexivity|right; vm_compute; reflexivity]|vm_compute; reflexivity].
  - eexists. split; [eexists _, (fresh (bytes_reader [])); split; [vm_compute; reflexivity|left; reflexivity]|vm_compute; reflexivity].
Qed.
