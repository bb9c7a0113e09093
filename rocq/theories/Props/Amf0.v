(** Properties C52-C63, C73, C76, C95: AMF0. *)
From Coq Require Import String Permutation.
From Verif Require Import Base.Go Base.GoFacts Base.IO Base.Float64 Proofs.Float64 Proofs.IOFacts
  Model.AmfTypes Model.Amf3 Model.Amf0 Spec.Amf Proofs.AmfFacts Proofs.Amf0Enc Proofs.Amf0RT Proofs.AmfTerm Proofs.AmfTame
  Proofs.Amf0More Proofs.Amf0Sim Proofs.AmfHeap Proofs.Amf0Fin.

(** A nested value used to show that the hypotheses below can be met. *)
Definition sample : tree :=
  TObj [(str "width", TFloat 4649544402794971136); (str "name", TStr (str "goav"));
        (str "tags", TArr [TStr []; TBool true; TNil; TInt false (-5)]);
        (str "user", TTyped (str "T") [(str "id", TUint true 7)])].
Example sample_ok : ok0 sample.
Proof.
  unfold sample. cbn [ok0 map fst snd all_of fold_right].
  assert (B : forall s, Forall byte (str s)).
  { induction s as [|a s IH]; constructor; [|exact IH]. destruct a as [[] [] [] [] [] [] [] []]; unfold byte; cbn; lia. }
  repeat match goal with |- _ /\ _ => split end; try exact I; try apply B; try (cbn; unfold len; cbn; lia);
  try (repeat constructor; cbn; intuition discriminate).
Qed.

(** ** C52 *)
Theorem C52_amf0_round_trip : forall t w, ok0 t -> never_fails w ->
  exists w' enc, encode0 t w = (w', Ok (len enc)) /\ w_out w' = w_out w ++ enc /\
  forall d rest e, d_r d = cont (enc ++ rest) e ->
    rest <> [] \/ e_zero e = false \/ ends_empty t = false ->
    exists d' v, decode0 d = (d', Ok v) /\ d_r d' = cont rest e /\
      unfolds (d_heap d') v (img0 t) /\ (exists new, d_heap d' = d_heap d ++ new).
Proof.
  intros t w Hok Hw. destruct (emits_run _ _ _ w (encode0_emits t Hok) Hw) as [n E].
  exists (mkW (w_out w ++ wire0 t) n (w_script w)), (wire0 t). split; [exact E|]. split; [reflexivity|].
  intros d rest e Hr Hs. rewrite cont_contr in Hr.
  destruct (decode0_wire t d rest e Hok Hr Hs) as (d' & v & H1 & H2 & H3 & H4).
  exists d', v. rewrite cont_contr. split; [exact H1|]. split; [exact H2|]. split; [apply H4, extends_refl|exact H3].
Qed.
Print Assumptions C52_amf0_round_trip.

(** ** C95: the bytes are those of the AMF0 specification. *)
Theorem C95_amf0_wire_format : forall t w, ok0 t -> never_fails w ->
  exists n, encode0 t w = (mkW (w_out w ++ wire0 t) n (w_script w), Ok (len (wire0 t))).
Proof. intros t w Hok Hw. exact (emits_run _ _ _ w (encode0_emits t Hok) Hw). Qed.
Print Assumptions C95_amf0_wire_format.
Example C95_example : exists n, encode0 sample buffer0 = (mkW (wire0 sample) n (w_script buffer0), Ok (len (wire0 sample))).
Proof. destruct (C95_amf0_wire_format sample buffer0 sample_ok (fun _ => eq_refl)) as [n H]. exists n. exact H. Qed.

(** ** C53 *)
Theorem C53_encode_count_partial : forall t w w' n, keys_fit t -> encode0 t w = (w', Ok n) ->
  exists s, w_out w' = w_out w ++ s /\ n = len s.
Proof.
  intros t w w' n Hk E. destruct (encode0_count t Hk w) as (w1 & r & s & E1 & _ & _ & Ho & Hr).
  rewrite E in E1. inversion E1; subst. exists s. split; [exact Ho|].
  destruct Hr as [(a & Ha & Hq & _)|(e & He)]; [inversion Ha; subst; exact Hq|discriminate].
Qed.
Print Assumptions C53_encode_count_partial.
Example C53_example : keys_fit sample.
Proof. cbn. repeat split; try exact I; unfold len; cbn; lia. Qed.

(** With one key of 65536 bytes the count is 65536 too small. *)
Theorem C53_encode_count_refuted : forall k, len k = 65536 -> forall w, never_fails w ->
  exists w' n s, encode0 (TObj [(k, TNil)]) w = (w', Ok n) /\ w_out w' = w_out w ++ s /\ n = len s - 65536.
Proof.
  intros k Hk w Hw. cbn [encode0 map fst snd]. unfold encode_object0, encode_fields0, encode_string0, encode_null, write_byte, wbind.
  rewrite (write_never_fails _ w Hw). unfold wret. cbn [w_out w_calls w_script].
  repeat (rewrite write_never_fails by (intro; apply Hw); unfold wret; cbn [w_out w_calls w_script]).
  eexists _, _, _. split; [reflexivity|]. cbn [w_out]. rewrite <- !app_assoc. split; [reflexivity|].
  rewrite Hk. repeat (rewrite len_app || rewrite len_be16 || rewrite len_cons || rewrite len_nil || rewrite Hk). reflexivity.
Qed.
Print Assumptions C53_encode_count_refuted.
Example C53_refuted_witness : len (repeat 97 (Z.to_nat 65536)) = 65536.
Proof. rewrite len_repeat. reflexivity. Qed.

(** ** C54 *)
Theorem C54_decode_terminates : forall d,
  snd (decode0 d) <> OutOfFuel /\
  (exists used, r_rest (d_r d) = used ++ r_rest (d_r (fst (decode0 d)))) /\
  (forall v, snd (decode0 d) = Ok v -> (length (r_rest (d_r (fst (decode0 d)))) < length (r_rest (d_r d)))%nat).
Proof.
  intros d. destruct (sane_dec0 (fuel_for d) d) as (H1 & _ & H3 & H4); [unfold fuel_for, rem; lia|].
  split; [exact H1|]. split; [exact H3|]. exact (H4 eq_refl).
Qed.
Print Assumptions C54_decode_terminates.
Theorem C54_decode_batch_terminates : forall d, snd (snd (decode_batch0 d)) <> OutOfFuel.
Proof. intros d. apply (batch0_done (fuel_for d) d). unfold fuel_for, rem; lia. Qed.
Print Assumptions C54_decode_batch_terminates.

(** ** C55: a reference with index = number of complex values decoded so far panics. *)
Theorem C55_decode_never_panics_refuted : exists s, is_bytes s /\ snd (decode0 (fresh (bytes_reader s))) = Panic.
Proof. exists [7; 0; 0]. split; [repeat constructor; unfold byte; lia|]. reflexivity. Qed.
Print Assumptions C55_decode_never_panics_refuted.
(** Input that contains no byte equal to the reference marker cannot make it panic. *)
Theorem C55_decode_never_panics_partial : forall d, ~ In 7 (r_rest (d_r d)) -> snd (decode0 d) <> Panic.
Proof.
  intros d Hn HP. destruct (sane_dec0 (fuel_for d) d) as (_ & H2 & _); [unfold fuel_for, rem; lia|].
  apply Hn, (H2 HP).
Qed.
Print Assumptions C55_decode_never_panics_partial.

(** ** C56: for every time, decoding leaves one byte of the encoding unread and yields the bits of the
    millisecond count shifted right by 8. *)
Theorem C56_dates_round_trip_refuted : forall sec w, never_fails w ->
  exists w' enc, encode0 (TTime sec) w = (w', Ok (len enc)) /\ w_out w' = w_out w ++ enc /\
  forall d rest e, d_r d = cont (enc ++ rest) e ->
    decode0 d = (set_r (cont (0 :: rest) e) d, Ok (VNum (f64_mul_c (f64_of_Z sec) 1000 / 256))).
Proof.
  intros sec w Hw. destruct (emits_run _ _ _ w (encode_date0_emits sec) Hw) as [n E].
  eexists _, (11 :: 0 :: be64 (f64_mul_c (f64_of_Z sec) 1000) ++ [0; 0]). split; [exact E|]. split; [reflexivity|].
  intros d rest e Hr. rewrite cont_contr in *. apply decode0_encoded_date; [|exact Hr].
  apply f64_mul_c_range; [apply f64_of_Z_range|lia].
Qed.
Print Assumptions C56_dates_round_trip_refuted.
(** A date laid out as the AMF0 specification says (marker, double, two zone bytes) is decoded to its
    milliseconds and consumed entirely. *)
Theorem C56_adobe_dates_decode_partial : forall bits zone d rest e,
  0 <= bits < 18446744073709551616 -> len zone = 2 ->
  d_r d = cont (11 :: be64 bits ++ zone ++ rest) e ->
  decode0 d = (set_r (cont rest e) d, Ok (VNum bits)).
Proof. intros bits zone d rest e Hb Hz Hr. rewrite cont_contr in *. exact (decode0_adobe_date d bits zone rest e Hb Hz Hr). Qed.
Print Assumptions C56_adobe_dates_decode_partial.

(** ** C57 *)
Theorem C57_empty_string_readers_refuted :
  snd (decode0 (fresh (bytes_reader (wire0 (TStr []))))) = Err EEof /\ snd (decode0 (fresh (bytes_buffer (wire0 (TStr []))))) = Ok (VStr []).
Proof. split; reflexivity. Qed.
Print Assumptions C57_empty_string_readers_refuted.
Theorem C57_empty_string_readers_partial : forall d rest e, rest <> [] \/ e_zero e = false ->
  d_r d = cont (wire0 (TStr []) ++ rest) e -> exists d', decode0 d = (d', Ok (VStr [])) /\ d_r d' = cont rest e.
Proof.
  intros d rest e Hs Hr. rewrite cont_contr in *.
  destruct (decode0_wire (TStr []) d rest e) as (d' & v & H1 & H2 & _ & H4); [|exact Hr|destruct Hs; [left|right; left]; assumption|].
  { cbn. split; [constructor|reflexivity]. }
  exists d'. split; [|exact H2]. specialize (H4 _ (extends_refl _)). cbn [img0] in H4. inversion H4; subst. exact H1.
Qed.
Print Assumptions C57_empty_string_readers_partial.

(** ** C58: input cut right after a marker (here: a number with no digits at all) is reported as a clean end. *)
Theorem C58_batch_reports_truncation_refuted : exists s cut, s = wire0 (TFloat 0) /\ (0 < cut < length s)%nat /\ snd (decode_batch0 (fresh (bytes_reader (firstn cut s)))) = ([], Ok tt).
Proof. exists (wire0 (TFloat 0)), 1%nat. repeat split; cbn; lia. Qed.
Print Assumptions C58_batch_reports_truncation_refuted.
(** What holds: a batch that reports success has at least read the whole input. *)
Theorem C58_batch_success_consumes_all_partial : forall d d' vs,
  decode_batch0 d = (d', (vs, Ok tt)) -> r_rest (d_r d') = [].
Proof.
  intros d d' vs E. pose proof (batch0_done (fuel_for d) d) as H. unfold decode_batch0 in E. rewrite E in H.
  apply H; [unfold fuel_for, rem; lia|reflexivity].
Qed.
Print Assumptions C58_batch_success_consumes_all_partial.

(** ** C59 *)
Theorem C59_decode_batch_inverts_encode_batch : forall ts w, Forall ok0 ts -> never_fails w ->
  exists w' enc, encode_batch0 ts w = (w', Ok tt) /\ w_out w' = w_out w ++ enc /\ forall d e, d_r d = cont enc e -> (e_zero e = false \/ forall t, last ts TNil = t -> ends_empty t = false) ->
    exists d' vs, decode_batch0 d = (d', (vs, batch_end e)) /\ r_rest (d_r d') = [] /\ Forall2 (unfolds (d_heap d')) vs (map img0 ts).
Proof.
  intros ts w Hok Hw. destruct (emits_run _ _ _ w (encode_batch0_emits ts Hok) Hw) as [n E].
  eexists _, _. split; [exact E|]. split; [reflexivity|]. intros d e Hr Hl. rewrite cont_contr in Hr.
  apply (decode_batch0_wire ts d e Hok Hr).
  clear - Hl. induction ts as [|t [|t2 ts] IH]; cbn [last_ok]; [exact I| |].
  - destruct Hl as [Hl|Hl]; [left; exact Hl|right; apply Hl; reflexivity].
  - apply IH. destruct Hl as [Hl|Hl]; [left; exact Hl|right; exact Hl].
Qed.
Print Assumptions C59_decode_batch_inverts_encode_batch.
Example C59_example : Forall ok0 [sample; TStr (str "x"); sample].
Proof.
  constructor; [apply sample_ok|]. constructor; [|constructor; [apply sample_ok|constructor]].
  split; [repeat constructor; unfold byte; lia|reflexivity].
Qed.

(** ** C60: [1-element array] then a reference to it decodes to the empty array. *)
Theorem C60_references_refuted : exists s vs,
  snd (decode_batch0 (fresh (bytes_buffer s))) = ([VArr [VBool true]; vs], Ok tt) /\ s = wire0 (TArr [TBool true]) ++ [7; 0; 0] /\ vs = VArr [].
Proof. eexists _, _. split; [|split; reflexivity]. reflexivity. Qed.
Print Assumptions C60_references_refuted.
(** References to objects and ECMA arrays give the very same map, however many values were decoded in
    between (including failed attempts), and that map still has the contents it had. *)
Theorem C60_references_to_objects_partial : forall d marker s e d1 v d2 i rest e2,
  d_r d = cont (marker :: s) e -> marker = 3 \/ marker = 8 -> decode0 d = (d1, Ok v) ->
  later decode0 d1 d2 ->
  i = len (d_ref0 d) -> i < 65536 ->
  decode0 (set_r (cont (7 :: be16 i ++ rest) e2) d2) = (set_r (cont rest e2) d2, Ok v) /\
  (forall p, unfolds (d_heap d1) v p -> unfolds (d_heap d2) v p).
Proof.
  intros d m s e d1 v d2 i rest e2 Hr Hm E Hl Hi Hlt. rewrite cont_contr in Hr.
  pose proof (object_cached d m s e d1 v Hr Hm E) as Hc. destruct (later0_ext _ _ Hl) as [X1 X2].
  split.
  - rewrite (decode0_ref _ i rest e2 v).
    + reflexivity.
    + pose proof (len_nonneg (d_ref0 d)). lia.
    + rewrite cont_contr. reflexivity.
    + cbn [set_r d_ref0]. subst i. unfold len. rewrite Nat2Z.id. eapply extends_nth; eassumption.
  - intros p. apply unfolds_extends, X2.
Qed.
Print Assumptions C60_references_to_objects_partial.

(** ** C61: a self-containing object: its decoding is no finite value, so Encode cannot terminate on it. *)
Theorem C61_decoded_values_finite_refuted : exists s d' v,
  is_bytes s /\ decode0 (fresh (bytes_reader s)) = (d', Ok v) /\ forall p, ~ unfolds (d_heap d') v p.
Proof.
  exists [3; 0; 1; 97; 7; 0; 0; 0; 0; 9].
  destruct (decode0 (fresh (bytes_reader [3; 0; 1; 97; 7; 0; 0; 0; 0; 9]))) as [d' r] eqn:E. vm_compute in E. injection E as <- <-.
  eexists _, _. split; [repeat constructor; unfold byte; lia|].
  split; [reflexivity|]. apply (no_cycle _ [97] (VObj 0)); reflexivity.
Qed.
Print Assumptions C61_decoded_values_finite_refuted.
Theorem C61_decoded_values_finite_partial : forall d d' v,
  ~ In 7 (r_rest (d_r d)) -> ~ In 17 (r_rest (d_r d)) -> decode0 d = (d', Ok v) -> exists p, unfolds (d_heap d') v p.
Proof. exact decode0_finite. Qed.
Print Assumptions C61_decoded_values_finite_partial.

(** ** C62: a string split between two Read calls is an error. *)
Theorem C62_chunking_independent_refuted : exists r1 r2, r_rest r1 = r_rest r2 /\ r_end r1 = r_end r2 /\ r_with r1 = r_with r2 /\ snd (decode0 (fresh r1)) = Ok (VStr (str "ab")) /\ snd (decode0 (fresh r2)) = Err EOther.
Proof. exists (mkR [[2; 0; 2; 97; 98]] (eof true) false), (mkR [[2; 0; 2; 97]; [98]] (eof true) false). repeat split. Qed.
Print Assumptions C62_chunking_independent_refuted.
(** Whenever decoding from a chunked reader succeeds, decoding the same bytes in one piece gives the
    same value, the same decoder state and the same remaining input (AMF3 values excluded: see C70). *)
Theorem C62_chunking_independent_partial : forall d d' v, ~ In 17 (r_rest (d_r d)) -> decode0 d = (d', Ok v) ->
  decode0 (set_r (cont (r_rest (d_r d)) (eof false)) d) = (set_r (cont (r_rest (d_r d')) (eof false)) d', Ok v).
Proof. intros d d' v Hn E. rewrite !cont_contr. exact (decode0_flat d d' v Hn E). Qed.
Print Assumptions C62_chunking_independent_partial.
Example C62_example : snd (decode0 (fresh (mkR [[3; 0]; [1]; [97]; [1]; [1]; [0]; [0]; [9; 5]] (eof true) false))) = Ok (VObj 0).
Proof. reflexivity. Qed.

(** ** C63 *)
Theorem C63_awkward_keys_refuted : exists w',
  encode0 (TObj [([], TNil)]) buffer0 = (w', Ok 7) /\ snd (decode0 (fresh (bytes_reader (w_out w')))) = Err EOther.
Proof. eexists. split; reflexivity. Qed.
Print Assumptions C63_awkward_keys_refuted.
Theorem C63_awkward_keys_partial : forall k v w, is_bytes k -> 0 < len k <= 65535 -> ok0 v -> never_fails w ->
  exists w' enc, encode0 (TObj [(k, v)]) w = (w', Ok (len enc)) /\ w_out w' = w_out w ++ enc /\ forall d rest e, d_r d = cont (enc ++ rest) e ->
    exists d' x, decode0 d = (d', Ok x) /\ d_r d' = cont rest e /\ unfolds (d_heap d') x (PObj [(k, img0 v)]).
Proof.
  intros k v w Hk Hl Hv Hw.
  destruct (C52_amf0_round_trip (TObj [(k, v)]) w) as (w' & enc & E1 & E2 & E3); [|exact Hw|].
  { cbn. repeat split; try tauto; try lia. constructor; [intros []|constructor]. }
  exists w', enc. split; [exact E1|]. split; [exact E2|]. intros d rest e Hr.
  destruct (E3 d rest e Hr) as (d' & x & H1 & H2 & H3 & _); [right; right; reflexivity|]. exists d', x. auto.
Qed.
Print Assumptions C63_awkward_keys_partial.

(** ** C73 *)
Theorem C73_integers_survive : forall wide z w, -9007199254740992 <= z <= 9007199254740992 -> never_fails w ->
  exists w' enc, encode0 (TInt wide z) w = (w', Ok 9) /\ w_out w' = w_out w ++ enc /\ forall d rest e, d_r d = cont (enc ++ rest) e ->
    exists bits, decode0 d = (set_r (cont rest e) d, Ok (VNum bits)) /\ f64_is_int bits z.
Proof.
  intros wide z w Hz Hw. destruct (emits_run _ _ _ w (encode_number_emits (f64_of_Z z)) Hw) as [n E].
  eexists _, _. split; [exact E|]. split; [reflexivity|]. intros d rest e Hr. rewrite cont_contr in *.
  exists (f64_of_Z z). split; [|apply f64_of_Z_exact, Hz].
  unfold decode0. rewrite (fuel_for_contr _ _ _ Hr). apply dec0_number; [apply f64_of_Z_range|exact Hr].
Qed.
Print Assumptions C73_integers_survive.

(** ** C76 *)
Theorem C76_encode_reports_writer_failures_partial : forall t, reports (encode0 t).
Proof. intros t. exact (honest_reports _ _ (encode0_reports t)). Qed.
Print Assumptions C76_encode_reports_writer_failures_partial.
(** EncodeWithAMF3 and EncodeXmlDocument turn a failure of the first write into success. *)
Theorem C76_encode_reports_writer_failures_refuted : forall t s w k, w_script w (w_calls w) = Some k ->
  snd (encode_with_amf3 t w) = Ok 0 /\ snd (encode_xmldoc0 s w) = Ok 0.
Proof. intros t s w k Hk. unfold encode_with_amf3, encode_xmldoc0, write_byte, write. rewrite Hk. split; reflexivity. Qed.
Print Assumptions C76_encode_reports_writer_failures_refuted.
Example C76_witness : exists w, w_script w (w_calls w) = Some 0%nat.
Proof. exists (mkW [] 0 (fun _ => Some 0%nat)). reflexivity. Qed.
