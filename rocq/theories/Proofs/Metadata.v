(** Lemmas about amf/metadata.go. *)
From Coq Require Import String.
From Verif Require Import Base.Go Base.GoFacts Base.IO Proofs.IOFacts
  Model.AmfTypes Model.Amf3 Model.Amf0 Model.Metadata Spec.Amf
  Proofs.AmfFacts Proofs.Amf0Enc Proofs.Amf0RT Proofs.AmfTerm Proofs.Amf0More Proofs.Amf3Enc Proofs.Amf3RT Proofs.Amf3More.

Lemma bytes_reader_contr p : bytes_reader p = contr p true.
Proof. reflexivity. Qed.

Lemma frame_eq : set_frame_frame = [2; 0; 13] ++ str "@setDataFrame".
Proof. reflexivity. Qed.

Lemma decode0_short d s rest e : d_r d = contr (2 :: be16 (len s) ++ s ++ rest) e -> 0 < len s < 65536 ->
  decode0 d = (set_r (contr rest e) d, Ok (VStr s)).
Proof.
  intros Hr Hs. unfold decode0, fuel_for. cbn [dec0].
  erewrite dbind_ok by (apply read_byte_contr; exact Hr). cbn [Z.eqb orb Pos.eqb].
  erewrite dbind_ok by (apply decode_string0_contr;
    [unfold wire_utf8; rewrite <- app_assoc; reflexivity|lia|left; intros ->; unfold len in Hs; cbn in Hs; lia]).
  reflexivity.
Qed.
Lemma decode0_long d m s rest e : m = 12 \/ m = 15 -> d_r d = contr (m :: be32 (len s) ++ s ++ rest) e -> 0 < len s < 4294967296 ->
  decode0 d = (set_r (contr rest e) d, Ok (VStr s)).
Proof.
  intros Hm Hr Hs. unfold decode0, fuel_for. cbn [dec0].
  erewrite dbind_ok by (apply read_byte_contr; exact Hr).
  destruct Hm as [-> | ->]; cbn [Z.eqb orb Pos.eqb];
  (erewrite dbind_ok by (apply decode_longstring0_contr;
    [unfold wire_utf8_long; rewrite <- app_assoc; reflexivity|lia|left; intros ->; unfold len in Hs; cbn in Hs; lia]);
  reflexivity).
Qed.
Lemma decode3_literal d s rest e : d_r d = contr (6 :: wire_str3 s ++ rest) e -> 0 < len s < 268435456 ->
  exists d', decode3 d = (d', Ok (VStr s)).
Proof.
  intros Hr Hs. unfold decode3, fuel_for. cbn [dec3].
  erewrite dbind_ok by (apply read_byte_contr; exact Hr). cbn [Z.eqb orb Pos.eqb].
  erewrite dbind_ok by (apply decode_string3_contr; [|reflexivity]; lia). eexists. reflexivity.
Qed.


(** The AMF0 frame header is recognised in every decoder state. *)
Lemma decode0_frame d p : decode0 (set_r (bytes_reader (set_frame_frame ++ p)) d) = (set_r (bytes_reader p) d, Ok (VStr set_data_frame)).
Proof.
  rewrite !bytes_reader_contr. rewrite (decode0_short _ set_data_frame p true); [reflexivity|reflexivity|].
  vm_compute; split; reflexivity.
Qed.
Lemma drop_frame p : drop (set_frame_frame ++ p) (len set_frame_frame) = p.
Proof. apply drop_app. Qed.
Lemma len_frame p : len (set_frame_frame ++ p) <? len set_frame_frame = false.
Proof. rewrite len_app. pose proof (len_nonneg p). lia. Qed.

Lemma read_bytes_any n d d' s : read_bytes n d = (d', Ok s) -> r_rest (d_r d) = s ++ r_rest (d_r d').
Proof.
  unfold read_bytes. destruct (read_rest n (d_r d)) as (p & Hp & Hs & _ & _).
  destruct (read n (d_r d)) as [r' [x|e| |]]; cbn [fst snd] in *; try discriminate.
  destruct (len x =? n); [|discriminate]. intros H. inversion H; subst. cbn [set_r d_r].
  rewrite (Hs s eq_refl) in Hp. exact Hp.
Qed.
Lemma read_be_any n d d' v : 0 < n -> read_be n d = (d', Ok v) -> exists x, r_rest (d_r d) = x ++ r_rest (d_r d') /\ n <= len x.
Proof.
  intros Hn. unfold read_be, read_full. destruct (read_full_chunks_rest (r_chunks (d_r d)) (e_err (r_end (d_r d))) n []) as ((p & Hp & Hs) & _ & _).
  destruct (read_full_chunks (e_err (r_end (d_r d))) n [] (r_chunks (d_r d))) as [cs' [s|e| |]] eqn:E; try discriminate. cbn [fst snd] in *.
  intros H. inversion H; subst; clear H. destruct (Hs s eq_refl) as [H1 Hl]. cbn [app] in H1. subst p.
  exists s. split; [exact Hp|]. rewrite Hl; [lia| |exact Hn]. intros Hc. rewrite Hc in E. discriminate.
Qed.

Lemma string_len k d d' x : 2 <= k -> (d* n := read_be k in read_bytes n) d = (d', Ok x) -> 2 + len x <= len (r_rest (d_r d)).
Proof.
  intros Hk E. apply dbind_inv in E as (d3 & n & E5 & E6). apply read_be_any in E5; [|lia]. destruct E5 as (y & Hy & Hl).
  apply read_bytes_any in E6. rewrite Hy, E6, !len_app. pose proof (len_nonneg (r_rest (d_r d'))). lia.
Qed.

(** A string decoded by AMF0 without a reference or the AMF3 switch took at least three more bytes than its length. *)
Lemma decode0_str_len d d' s m t : r_rest (d_r d) = m :: t -> m <> 7 -> m <> 17 -> decode0 d = (d', Ok (VStr s)) ->
  3 + len s <= len (r_rest (d_r d)).
Proof.
  intros Hr H7 H17 E. unfold decode0 in E. destruct (fuel_for d) as [|f]; [discriminate|]. cbn [dec0] in E.
  apply dbind_inv in E as (d1 & b & E1 & E2). pose proof (read_byte_any _ _ _ E1) as Hb. rewrite Hr in Hb.
  inversion Hb; subst b. rewrite Hr, len_cons, H1.
  repeat match type of E2 with (if ?c then _ else _) _ = _ => destruct c eqn:?C end; try lia;
    try (unfold dfail, dret in E2; discriminate);
    try (apply dbind_inv in E2 as (d2 & x & E3 & E4); unfold dret in E4; discriminate);
    try (apply dbind_inv in E2 as (d2 & x & E3 & E4); inversion E4; subst;
         first [apply (string_len 2) in E3|apply (string_len 4) in E3]; lia).
  - unfold decode_ecma0 in E2. apply dbind_inv in E2 as (? & ? & _ & E2). apply dbind_inv in E2 as (? & ? & _ & E2). discriminate.
  - unfold decode_strict0 in E2. apply dbind_inv in E2 as (? & ? & _ & E2). apply dbind_inv in E2 as (? & ? & _ & E2).
    apply dbind_inv in E2 as (? & ? & _ & E2). discriminate.
  - unfold decode_date0 in E2. apply dbind_inv in E2 as (? & ? & _ & E2). apply dbind_inv in E2 as (? & ? & _ & E2). discriminate.
  - unfold decode_typed0 in E2. apply dbind_inv in E2 as (? & ? & _ & E2). apply dbind_inv in E2 as (? & ? & _ & E2).
    apply dbind_inv in E2 as (? & ? & _ & E2). discriminate.
Qed.
