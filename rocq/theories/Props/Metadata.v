(** Properties C74, C75: the @setDataFrame header. [frame] is the AMF0 encoding of "@setDataFrame". *)
From Coq Require Import String.
From Verif Require Import Base.Go Base.GoFacts Base.IO Proofs.IOFacts
  Model.AmfTypes Model.Amf3 Model.Amf0 Model.Metadata Spec.Amf
  Proofs.AmfFacts Proofs.Amf0Enc Proofs.Amf0RT Proofs.AmfTerm Proofs.Amf0More Proofs.Amf3Enc Proofs.Amf3RT Proofs.Amf3More Proofs.Metadata.

Definition frame : bytes := [2; 0; 13] ++ str "@setDataFrame".

(** ** C74 *)
Theorem C74_del_undoes_add : forall s rest p d, 0 < len s < 65536 -> s <> str "@setDataFrame" ->
  p = 2 :: be16 (len s) ++ s ++ rest ->
  snd (add_meta_header decode0 d p) = Ok (frame ++ p) /\
  forall d2, snd (del_meta_header decode0 d2 (frame ++ p)) = Ok p /\ snd (add_meta_header decode0 d2 (frame ++ p)) = Ok (frame ++ p).
Proof.
  intros s rest p d Hs Hne ->. split.
  - unfold add_meta_header. rewrite bytes_reader_contr. rewrite (decode0_short _ s rest true) by (reflexivity || assumption).
    cbn [snd]. destruct (bytes_eqb s set_data_frame) eqn:E; [|reflexivity]. apply bytes_eqb_eq in E. elim Hne. exact E.
  - intros d2. unfold del_meta_header, add_meta_header. change frame with set_frame_frame. rewrite decode0_frame, bytes_eqb_refl.
    rewrite len_frame, drop_frame. split; reflexivity.
Qed.
Print Assumptions C74_del_undoes_add.
(** For every input, decoder and decoder history: what AddMetaHeader returns is the input or the frame followed by
    the input; if it added the frame, DelMetaHeader removes it and AddMetaHeader adds no second one. *)
Theorem C74_add_meta_header_general : forall dec d p d1 q, add_meta_header dec d p = (d1, Ok q) ->
  (q = p \/ q = frame ++ p) /\
  (q <> p -> forall d2, snd (del_meta_header decode0 d2 q) = Ok p /\ snd (add_meta_header decode0 d2 q) = Ok q).
Proof.
  intros dec d p d1 q E. change frame with set_frame_frame.
  assert (Hq : q = p \/ q = set_frame_frame ++ p).
  { unfold add_meta_header in E. destruct (dec (set_r (bytes_reader p) d)) as [d' [v|e| |]]; try discriminate.
    destruct v; try discriminate. destruct (bytes_eqb s set_data_frame); [left|right]; congruence. }
  split; [exact Hq|]. intros Hn d2. destruct Hq as [Hq|Hq]; [congruence|]. rewrite Hq. unfold del_meta_header, add_meta_header.
  rewrite decode0_frame, bytes_eqb_refl, len_frame, drop_frame. split; reflexivity.
Qed.
Print Assumptions C74_add_meta_header_general.
Theorem C74_add_keeps_header : forall rest d, snd (add_meta_header decode0 d (frame ++ rest)) = Ok (frame ++ rest).
Proof.
  intros rest d. unfold add_meta_header. change frame with set_frame_frame. rewrite decode0_frame, bytes_eqb_refl. reflexivity.
Qed.
Print Assumptions C74_add_keeps_header.
Example C74_example : snd (add_meta_header decode0 (fresh (bytes_reader [])) ([2; 0; 10] ++ str "onMetaData" ++ [5]))
  = Ok (frame ++ [2; 0; 10] ++ str "onMetaData" ++ [5]).
Proof. reflexivity. Qed.

(** ** C75: the header is assumed to be 16 bytes long whatever its encoding. *)
Theorem C75_del_returns_rest_refuted : forall rest d,
  (forall m, m = 12 \/ m = 15 ->
   snd (del_meta_header decode0 d (m :: be32 13 ++ str "@setDataFrame" ++ rest)) = Ok (str "me" ++ rest)) /\
  snd (del_meta_header decode3 d (6 :: wire_str3 (str "@setDataFrame"))) = Panic /\
  snd (del_meta_header decode3 d (6 :: wire_str3 (str "@setDataFrame") ++ 5 :: rest)) = Ok rest.
Proof.
  intros rest d. unfold del_meta_header. split; [|split].
  - intros m Hm. rewrite bytes_reader_contr. rewrite (decode0_long _ m (str "@setDataFrame") rest true Hm) by (reflexivity || (vm_compute; split; reflexivity)).
    change set_data_frame with (str "@setDataFrame"). rewrite bytes_eqb_refl. replace (_ <? _) with false; [destruct Hm as [-> | ->]; reflexivity|].
    symmetry. apply Z.ltb_ge. change (len set_frame_frame) with 16. rewrite len_cons, !len_app, len_be32. change (len (str "@setDataFrame")) with 13. pose proof (len_nonneg rest). lia.
  - rewrite bytes_reader_contr. destruct (decode3_literal (set_r (contr (6 :: wire_str3 (str "@setDataFrame")) true) d) (str "@setDataFrame") [] true) as [d' E].
    + rewrite app_nil_r. reflexivity.
    + vm_compute; split; reflexivity.
    + rewrite E. reflexivity.
  - rewrite bytes_reader_contr. destruct (decode3_literal (set_r (contr (6 :: wire_str3 (str "@setDataFrame") ++ 5 :: rest) true) d) (str "@setDataFrame") (5 :: rest) true) as [d' E].
    + reflexivity.
    + vm_compute; split; reflexivity.
    + rewrite E. change set_data_frame with (str "@setDataFrame"). rewrite bytes_eqb_refl. replace (_ <? _) with false; [reflexivity|].
      symmetry. apply Z.ltb_ge. change (len set_frame_frame) with 16. rewrite len_cons, !len_app, len_cons.
      change (len (wire_str3 (str "@setDataFrame"))) with 14. pose proof (len_nonneg rest). lia.
Qed.
Print Assumptions C75_del_returns_rest_refuted.
(** With the AMF0 short-string encoding the result is exact for every continuation and decoder state. *)
Theorem C75_del_returns_rest_partial : forall rest d, snd (del_meta_header decode0 d (frame ++ rest)) = Ok rest.
Proof.
  intros rest d. unfold del_meta_header. change frame with set_frame_frame.
  rewrite decode0_frame, bytes_eqb_refl, len_frame, drop_frame. reflexivity.
Qed.
Print Assumptions C75_del_returns_rest_partial.
(** Data that starts with another string is returned as it is; whatever the data, decoder and history, a result is the data
    or the data without its first 16 bytes, the latter only if the decoder reads the command there. *)
Theorem C75_others_unchanged : forall s rest p d, 0 < len s < 65536 -> s <> str "@setDataFrame" -> p = 2 :: be16 (len s) ++ s ++ rest ->
  snd (del_meta_header decode0 d p) = Ok p.
Proof.
  intros s rest p d Hs Hne ->. unfold del_meta_header. rewrite bytes_reader_contr. rewrite (decode0_short _ s rest true) by (reflexivity || assumption).
  cbn [snd]. destruct (bytes_eqb s set_data_frame) eqn:E; [|reflexivity]. apply bytes_eqb_eq in E. elim Hne. exact E.
Qed.
Print Assumptions C75_others_unchanged.
Theorem C75_del_general : forall dec d p d1 q, del_meta_header dec d p = (d1, Ok q) ->
  exists s, dec (set_r (bytes_reader p) d) = (d1, Ok (VStr s)) /\
    ((s <> str "@setDataFrame" /\ q = p) \/ (s = str "@setDataFrame" /\ exists h, len h = 16 /\ p = h ++ q)).
Proof.
  intros dec d p d1 q E. unfold del_meta_header in E. destruct (dec (set_r (bytes_reader p) d)) as [d' [v|e| |]]; try discriminate.
  destruct v; try discriminate. exists s. destruct (bytes_eqb s set_data_frame) eqn:Eq.
  - apply bytes_eqb_eq in Eq. destruct (len p <? len set_frame_frame) eqn:L; [discriminate|]. apply Z.ltb_ge in L. change (len set_frame_frame) with 16 in *.
    split; [congruence|]. right. split; [exact Eq|]. exists (take p 16). injection E as _ <-. split; [rewrite len_take; lia|]. symmetry. apply take_drop.
  - split; [congruence|]. left. split; [|congruence]. intros ->. rewrite bytes_eqb_refl in Eq. discriminate.
Qed.
Print Assumptions C75_del_general.
Example C75_others_example : 0 < len (str "onMetaData") < 65536 /\ str "onMetaData" <> str "@setDataFrame".
Proof. split; [vm_compute; split; reflexivity|discriminate]. Qed.
(** It never panics with the AMF0 decoder on input that neither contains the reference marker byte nor
    starts with the AMF3 switch. *)
Theorem C75_del_never_panics_partial : forall p d, ~ In 7 p -> (forall t, p <> 17 :: t) ->
  snd (del_meta_header decode0 d p) <> Panic.
Proof.
  intros p d H7 H17. unfold del_meta_header.
  assert (HR : r_rest (d_r (set_r (bytes_reader p) d)) = p) by (rewrite bytes_reader_contr; cbn [d_r set_r]; apply contr_rest).
  pose proof (proj1 (proj2 (sane_dec0 (fuel_for (set_r (bytes_reader p) d)) (set_r (bytes_reader p) d) ltac:(unfold fuel_for, rem; lia)))) as HP.
  fold decode0 in HP. rewrite HR in HP.
  destruct (decode0 (set_r (bytes_reader p) d)) as [d' [v|e| |]] eqn:E; cbn [snd]; try discriminate.
  - destruct v; cbn [snd]; try discriminate. destruct (bytes_eqb s set_data_frame) eqn:Eq; [|discriminate].
    apply bytes_eqb_eq in Eq. subst s. destruct p as [|m t].
    + exfalso. revert E. vm_compute. discriminate.
    + pose proof (decode0_str_len _ _ _ m t HR ltac:(intros ->; apply H7; left; reflexivity) ltac:(intros ->; apply (H17 t); reflexivity) E) as HL.
      rewrite HR in HL. replace (len (m :: t) <? len set_frame_frame) with false; [discriminate|].
      symmetry. apply Z.ltb_ge. etransitivity; [|exact HL]. vm_compute. discriminate.
  - exfalso. apply H7. apply HP. unfold decode0 in E. rewrite E. reflexivity.
Qed.
Print Assumptions C75_del_never_panics_partial.
Example C75_example : snd (del_meta_header decode0 (fresh (bytes_reader [])) (frame ++ [2; 0; 1; 65])) = Ok [2; 0; 1; 65].
Proof. reflexivity. Qed.
