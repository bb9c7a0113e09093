(** AMF decoding from sources that break, or that return their last bytes together with io.EOF. *)
From Coq Require Import String.
From Verif Require Import Base.Go Base.GoFacts Base.IO Base.Float64 Proofs.IOFacts
  Model.AmfTypes Model.Amf3 Model.Amf0 Spec.Amf Proofs.AmfFacts Proofs.Amf0RT Proofs.AmfTame Proofs.AmfTerm Proofs.Amf0More Proofs.Amf3More Proofs.AmfWith.

(** ** C133: the failure of a source is never taken for the end of the input. The decoder may be in any
    state and the source may deliver its bytes in any pieces. *)
Theorem C133_broken_source_reported : forall d, e_err (r_end (d_r d)) <> EEof ->
  snd (decode0 d) <> Err EEof /\ snd (decode3 d) <> Err EEof /\
  (snd (snd (decode_batch0 d)) = Panic \/ exists er, er <> EEof /\ snd (snd (decode_batch0 d)) = Err er) /\
  (exists er, er <> EEof /\ snd (snd (decode_batch3 d)) = Err er).
Proof.
  intros d He. split; [|split; [|split]].
  - intros H. apply (tame_dec0 (fuel_for d) d) in H. tauto.
  - intros H. apply (tame_dec3 (fuel_for d) d) in H. tauto.
  - pose proof (batch0_done (fuel_for d) d ltac:(unfold fuel_for, rem; lia)) as [H1 H2]. pose proof (batch0_not_eof (fuel_for d) d) as H3.
    unfold decode_batch0. destruct (snd (snd (batch0 (fuel_for d) d))) as [[]|er| |]; [tauto| |left; reflexivity|congruence].
    right. exists er. split; [intros ->; elim H3; reflexivity|reflexivity].
  - pose proof (batch3_done (fuel_for d) d ltac:(unfold fuel_for, rem; lia)) as (H1 & H0 & H2). pose proof (batch3_not_eof (fuel_for d) d) as H3.
    unfold decode_batch3. destruct (snd (snd (batch3 (fuel_for d) d))) as [[]|er| |]; [tauto| |congruence|congruence].
    exists er. split; [intros ->; elim H3; reflexivity|reflexivity].
Qed.
Print Assumptions C133_broken_source_reported.
(** A connection that is reset after a complete number: the number, and the error of the connection. *)
Example C133_example :
  let d := fresh (mkR [[0]; [64; 9]; [0; 0; 0; 0; 0; 0]] (mkEnd true ESource) false) in
  e_err (r_end (d_r d)) <> EEof /\ snd (decode_batch0 d) = ([VNum 4614219293217783808], Err ESource).
Proof. split; [discriminate|reflexivity]. Qed.

(** ** C134: an io.Reader may return its last bytes together with io.EOF (Read's documentation allows
    n > 0 with err != nil); readers that do so should decode like any other. They do not: whether an
    encoded AMF0 value arrives depends on its last bytes. *)
Theorem C134_bytes_with_eof_refuted : forall t d e, ok0 t -> d_r d = cont (wire0 t) e ->
  let d' := set_r (with_error (d_r d)) d in
  (ends_number t = true -> decode0 d' = (let (d1, x) := decode0 d in (set_r (with_error (d_r d1)) d1, x))) /\
  (ends_number t = false -> snd (decode0 d') = Err (e_err e)).
Proof.
  intros t d e Hok Hr. rewrite cont_contr in Hr. cbv zeta. change (set_r (with_error (d_r d)) d) with (wr d).
  pose proof (dec0_with t Hok (fuel_for d) d e ltac:(rewrite (fuel_for_contr _ _ _ Hr); lia) Hr) as H.
  unfold decode0. rewrite fuel_wr. split; intros He; rewrite He in H.
  - unfold same in H. rewrite H. destruct (dec0 (fuel_for d) d). reflexivity.
  - unfold lost in H. rewrite H, Hr. reflexivity.
Qed.
Print Assumptions C134_bytes_with_eof_refuted.
(** In a batch the loss is silent: DecodeBatch returns all values but the last one, and no error. *)
Theorem C134_batch_drops_last_refuted : forall ts t d, Forall ok0 ts -> ok0 t -> ends_number t = false ->
  d_r d = with_error (bytes_reader (concat (map wire0 (ts ++ [t])))) ->
  exists d' vs, decode_batch0 d = (d', (vs, Ok tt)) /\ Forall2 (unfolds (d_heap d')) vs (map img0 ts).
Proof.
  intros ts t d Hts Ht He Hr.
  set (d0 := set_r (bytes_reader (concat (map wire0 (ts ++ [t])))) d).
  assert (Ed : d = wr d0) by (unfold wr, d0; destruct d; cbn in *; rewrite Hr; reflexivity).
  assert (Hr0 : d_r d0 = contr (concat (map wire0 ts) ++ wire0 t) true).
  { unfold d0. cbn [d_r set_r]. rewrite map_app, concat_app. cbn [map concat]. rewrite app_nil_r. reflexivity. }
  destruct (batch0_lost ts t Hts Ht He (fuel_for d0) d0 true) as (d' & vs & E & _ & U); [|exact Hr0|].
  - rewrite (fuel_for_contr _ _ _ Hr0), app_length. pose proof (concat_wire_length ts Hts). lia.
  - exists d', vs. split; [|apply U, extends_refl]. unfold decode_batch0. rewrite Ed, fuel_wr. exact E.
Qed.
Print Assumptions C134_batch_drops_last_refuted.
(** AMF3 strings, XML and byte arrays are lost in the same way. *)
Theorem C134_amf3_refuted : forall m s d e, m = 6 \/ m = 7 \/ m = 11 \/ m = 12 -> 0 < len s < 2 ^ 28 ->
  d_r d = with_error (cont (m :: wire_u29 (2 * len s + 1) ++ s) e) -> snd (decode3 d) = Err (e_err e).
Proof.
  intros m s d e Hm Hs Hr. change (2 ^ 28) with 268435456 in Hs.
  set (d0 := set_r (contr (m :: wire_u29 (2 * len s + 1) ++ s) e) d).
  assert (Ed : d = wr d0) by (unfold wr, d0; destruct d; cbn in *; rewrite Hr; reflexivity).
  pose proof (blob3_lost m s d0 e Hm Hs eq_refl) as H. rewrite Ed. exact H.
Qed.
Print Assumptions C134_amf3_refuted.
(** What does hold, for every input, decoder state and cutting into pieces: such a source gives either
    exactly what the ordinary source gives, or its error after the whole input has been read. In
    particular every Decode that leaves bytes unread is unaffected. *)
Theorem C134_bytes_with_eof_partial : forall dec, dec = decode0 \/ dec = decode3 -> forall d, r_with (d_r d) = false ->
  let d' := set_r (with_error (d_r d)) d in let d1 := fst (dec d) in
  dec d' = (set_r (with_error (d_r d1)) d1, snd (dec d)) \/
  (r_rest (d_r d1) = [] /\ snd (dec d') = Err (e_err (r_end (d_r d)))).
Proof.
  intros dec Hd d Hw. cbv zeta. change (set_r (with_error (d_r d)) d) with (wr d). change (set_r (with_error (d_r ?x)) ?x) with (wr x).
  destruct Hd as [->| ->].
  - unfold decode0. rewrite fuel_wr. exact (proj2 (proj2 (wsim_dec0 (fuel_for d)) d Hw)).
  - unfold decode3. rewrite fuel_wr. exact (proj2 (proj2 (wsim_dec3 (fuel_for d)) d Hw)).
Qed.
Print Assumptions C134_bytes_with_eof_partial.
Example C134_example :
  let s := wire0 (TFloat 0) ++ wire0 (TStr (str "ab")) in
  snd (decode_batch0 (fresh (bytes_reader s))) = ([VNum 0; VStr (str "ab")], Ok tt) /\
  snd (decode_batch0 (fresh (with_error (bytes_reader s)))) = ([VNum 0], Ok tt) /\
  ends_number (TStr (str "ab")) = false /\ ends_number (TArr [TNil; TFloat 0]) = true.
Proof. repeat split. Qed.
