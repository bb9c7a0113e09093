(** AMF0: chunked readers, dates, references, finiteness of reference-free values. *)
From Coq Require Import Permutation.
From Verif Require Import Base.Go Base.GoFacts Base.IO Base.Float64 Proofs.Float64 Proofs.IOFacts
  Model.AmfTypes Model.Amf3 Model.Amf0 Spec.Amf Proofs.AmfFacts Proofs.Amf0Enc Proofs.Amf0RT Proofs.AmfTerm Proofs.AmfTame
  Proofs.Amf0More.

(** * A successful decoding from a chunked reader is also the decoding from a contiguous one. *)
Definition flat (d : dstate) : dstate := set_r (contr (r_rest (d_r d)) false) d.

Definition sim {A} (m : Dm A) : Prop := tame m /\ forall d d' a, ~ In 17 (r_rest (d_r d)) ->
  m d = (d', Ok a) -> m (flat d) = (flat d', Ok a).

Lemma not_in_step (d d' : dstate) : step_ok d d' -> ~ In 17 (r_rest (d_r d)) -> ~ In 17 (r_rest (d_r d')).
Proof.
  intros (_ & _ & _ & _ & _ & _ & [x Hx]) H Hin. apply H. apply in_rev. rewrite Hx. apply in_or_app. left.
  apply in_rev. rewrite rev_involutive. exact Hin.
Qed.

Lemma sim_bind {A B} (m : Dm A) (k : A -> Dm B) : sim m -> (forall a, sim (k a)) -> sim (dbind m k).
Proof.
  intros [Tm Sm] Hk. split; [apply tame_bind; [exact Tm|intros; apply Hk]|].
  intros d d' b Hn. unfold dbind. destruct (Tm d) as [St _].
  destruct (m d) as [d1 [a|e| |]] eqn:E; try discriminate. cbn [fst] in St.
  intros E2. rewrite (Sm _ _ _ Hn E). apply Hk; [|exact E2]. eapply not_in_step; eassumption.
Qed.
Lemma sim_ret {A} (a : A) : sim (dret a).
Proof. split; [apply tame_ret|]. intros d d' b _ H. inversion H; subst. reflexivity. Qed.
Lemma sim_fail {A} e : e <> EEof -> sim (@dfail A e).
Proof. intros He. split; [apply tame_fail, He|]. intros d d' b _ H. inversion H. Qed.
Lemma sim_fuel {A} : sim (fun d => (d, @OutOfFuel A)).
Proof. split; [apply tame_fuel|]. intros d d' b _ H. inversion H. Qed.

Lemma flat_set_r r d : flat (set_r r d) = set_r (contr (r_rest r) false) (flat d).
Proof. destruct d. reflexivity. Qed.

Lemma sim_read_bytes n : 0 <= n -> sim (read_bytes n).
Proof.
  intros Hn. split; [apply tame_read_bytes|]. intros d d' s _. unfold read_bytes.
  destruct (read_rest n (d_r d)) as (p & Hp & Hs & _ & _).
  destruct (read n (d_r d)) as [r' [x|e| |]]; try discriminate. cbn [fst snd] in *.
  destruct (len x =? n) eqn:E; [|discriminate]. intros H. inversion H; subst; clear H.
  specialize (Hs s eq_refl). subst p. assert (n = len s) by lia. subst n.
  assert (R : read (len s) (d_r (flat d)) = (contr (r_rest r') false, Ok s)).
  { unfold flat. cbn [d_r set_r]. rewrite Hp. destruct s as [|c s].
    - cbn [app]. apply read0_contr. right. reflexivity.
    - apply read_contr. rewrite len_cons. pose proof (len_nonneg s). lia. }
  rewrite R, Z.eqb_refl, flat_set_r. reflexivity.
Qed.
Lemma sim_read_be n : 0 < n -> sim (read_be n).
Proof.
  intros Hn. split; [apply tame_read_be|]. intros d d' v _. unfold read_be, read_full.
  destruct (read_full_chunks_rest (r_chunks (d_r d)) (e_err (r_end (d_r d))) n []) as ((p & Hp & Hs) & _ & _).
  destruct (read_full_chunks (e_err (r_end (d_r d))) n [] (r_chunks (d_r d))) as [cs' [s|e| |]] eqn:E; try discriminate. cbn [fst snd] in *.
  intros H. inversion H; subst; clear H. destruct (Hs s eq_refl) as [H1 Hl]. cbn [app] in H1. subst p.
  assert (Hls : len s = n).
  { apply Hl; [|exact Hn]. intros Hc. rewrite Hc in E. discriminate. }
  fold (read_full n (d_r (flat d))).
  assert (R : read_full n (d_r (flat d)) = (contr (concat cs') false, Ok s)).
  { subst n. unfold flat, r_rest. cbn [d_r set_r]. rewrite Hp. apply read_full_contr. exact Hn. }
  rewrite R, flat_set_r. reflexivity.
Qed.

Lemma sim_state {A} (m : Dm A) : tame m ->
  (forall d r, m (set_r r d) = (set_r r (fst (m d)), snd (m d))) -> (forall d, d_r (fst (m d)) = d_r d) -> sim m.
Proof.
  intros Ht H H2. split; [exact Ht|]. intros d d' a _ E. unfold flat. rewrite H, E. cbn [fst snd].
  specialize (H2 d). rewrite E in H2. cbn [fst] in H2. rewrite H2. reflexivity.
Qed.
Lemma sim_alloc : sim alloc. Proof. apply sim_state; [apply tame_alloc|reflexivity|reflexivity]. Qed.
Lemma sim_obj_set l k v : sim (obj_set l k v). Proof. apply sim_state; [apply tame_obj_set|reflexivity|reflexivity]. Qed.
Lemma sim_ref0_push v : sim (ref0_push v). Proof. apply sim_state; [apply tame_ref0_push|reflexivity|reflexivity]. Qed.

(** The value of a successful read_be on bytes is non-negative; to avoid carrying the hypothesis that the
    input consists of bytes, negative counts are handled directly: read_bytes of a negative count fails. *)
Lemma sim_read_bytes_any n : sim (read_bytes n).
Proof.
  destruct (Z_le_gt_dec 0 n) as [H|H]; [apply sim_read_bytes, H|]. split; [apply tame_read_bytes|].
  intros d d' s _. unfold read_bytes. destruct (read n (d_r d)) as [r' [x|e| |]]; try discriminate.
  destruct (len x =? n) eqn:E; [|discriminate]. pose proof (len_nonneg x). lia.
Qed.

Lemma sim_read_byte : sim read_byte.
Proof. unfold read_byte. apply sim_bind; [apply sim_read_bytes_any|]. intros; apply sim_ret. Qed.
Lemma sim_string0 : sim decode_string0.
Proof. unfold decode_string0. apply sim_bind; [apply sim_read_be; lia|]. intros; apply sim_read_bytes_any. Qed.
Lemma sim_longstring0 : sim decode_longstring0.
Proof. unfold decode_longstring0. apply sim_bind; [apply sim_read_be; lia|]. intros; apply sim_read_bytes_any. Qed.

Lemma sim_loop_n {A} (b : Dm A) f : sim b -> forall n, sim (loop_n b f n).
Proof.
  intros Hb. induction f as [|f IH]; intros n; cbn [loop_n]; destruct (n <=? 0); try apply sim_ret; try apply sim_fuel.
  apply sim_bind; [exact Hb|]. intros. apply sim_bind; [apply IH|]. intros; apply sim_ret.
Qed.

Section WithDec.
  Variable dec : Dm value.
  Hypothesis Hdec : sim dec.
  Lemma sim_obj_loop loc : forall f, sim (obj_loop dec f loc).
  Proof.
    induction f as [|f IH]; cbn [obj_loop]; [apply sim_fuel|]. apply sim_bind; [apply sim_string0|]. intros [|c k].
    - unfold next_byte_must_be. apply sim_bind; [apply sim_read_byte|]. intros m. destruct (m =? 9); [apply sim_ret|apply sim_fail; discriminate].
    - apply sim_bind; [exact Hdec|]. intros. apply sim_bind; [apply sim_obj_set|]. intros; exact IH.
  Qed.
  Lemma sim_object0 f : sim (decode_object0 dec f).
  Proof.
    unfold decode_object0. apply sim_bind; [apply sim_alloc|]. intros. apply sim_bind; [apply sim_ref0_push|]. intros.
    apply sim_bind; [apply sim_obj_loop|]. intros; apply sim_ret.
  Qed.
End WithDec.

Theorem sim_dec0 : forall f, sim (dec0 f).
Proof.
  induction f as [|f IH]; [apply sim_fuel|].
  split; [apply tame_dec0|]. intros d d' a Hn. cbn [dec0]. unfold dbind at 1. intros E0.
  destruct (read_byte d) as [d1 [m|e| |]] eqn:E; try discriminate.
  assert (Hm : m <> 17) by (intros ->; apply Hn; eapply read_byte_in; exact E).
  rewrite (dbind_ok _ _ _ _ _ (proj2 sim_read_byte _ _ _ Hn E)).
  revert E0.
  match goal with |- ?K d1 = _ -> _ => assert (HK : sim K); [|apply HK] end.
  2:{ eapply not_in_step; [|exact Hn]. pose proof (tame_read_byte d) as [St _]. rewrite E in St. exact St. }
  repeat match goal with |- sim (if ?c then _ else _) => destruct c eqn:? end; try lia;
    try apply sim_ret; try (apply sim_fail; discriminate).
  - apply sim_bind; [apply sim_read_be; lia|]. intros; apply sim_ret.
  - apply sim_bind; [apply sim_read_byte|]. intros; apply sim_ret.
  - apply sim_bind; [apply sim_string0|]. intros; apply sim_ret.
  - apply sim_bind; [apply sim_object0, IH|]. intros; apply sim_ret.
  - unfold decode_reference0. apply sim_bind; [apply sim_read_be; lia|]. intros z. split.
    + intros x. destruct (len (d_ref0 x) <? z), (z =? len (d_ref0 x)); cbn; (split; [apply step_refl|discriminate]).
    + intros x x' b _. cbn [flat set_r d_ref0]. destruct (len (d_ref0 x) <? z), (z =? len (d_ref0 x)); intros H; inversion H; subst; reflexivity.
  - unfold decode_ecma0. apply sim_bind; [apply sim_read_be; lia|]. intros. apply sim_bind; [apply sim_object0, IH|]. intros; apply sim_ret.
  - unfold decode_strict0. apply sim_bind; [apply sim_read_be; lia|]. intros. apply sim_bind; [apply sim_ref0_push|]. intros.
    apply sim_bind; [apply sim_loop_n, IH|]. intros; apply sim_ret.
  - unfold decode_date0. apply sim_bind; [apply sim_read_be; lia|]. intros. apply sim_bind; [apply sim_read_bytes_any|]. intros; apply sim_ret.
  - apply sim_bind; [apply sim_longstring0|]. intros; apply sim_ret.
  - apply sim_bind; [apply sim_longstring0|]. intros; apply sim_ret.
  - unfold decode_typed0. apply sim_bind; [apply sim_ref0_push|]. intros. apply sim_bind; [apply sim_string0|]. intros.
    apply sim_bind; [apply sim_object0, IH|]. intros; apply sim_ret.
Qed.

Lemma decode0_flat d d' v : ~ In 17 (r_rest (d_r d)) -> decode0 d = (d', Ok v) -> decode0 (flat d) = (flat d', Ok v).
Proof.
  intros Hn. unfold decode0. replace (fuel_for (flat d)) with (fuel_for d).
  - apply sim_dec0, Hn.
  - unfold fuel_for, flat. cbn [d_r set_r]. rewrite contr_rest. reflexivity.
Qed.

(** * Dates *)
Lemma decode0_adobe_date d bits z rest e : 0 <= bits < 18446744073709551616 -> len z = 2 ->
  d_r d = contr (11 :: be64 bits ++ z ++ rest) e ->
  decode0 d = (set_r (contr rest e) d, Ok (VNum bits)).
Proof.
  intros Hb Hz Hr. unfold decode0, fuel_for. cbn [dec0].
  erewrite dbind_ok by (apply read_byte_contr; exact Hr). cbn -[read_be read_bytes].
  unfold decode_date0. change 8 with (len (be64 bits)).
  erewrite dbind_ok by (apply (read_be_contr _ (be64 bits) (z ++ rest) e); [reflexivity|reflexivity]).
  change 2 with 2. rewrite <- Hz.
  erewrite dbind_ok by (apply (read_bytes_contr _ z rest e); [reflexivity|lia]).
  unfold dret. rewrite be_val_be64, Z.mod_small by exact Hb. destruct d; reflexivity.
Qed.

Lemma encode_date0_emits sec : emits (encode0 (TTime sec)) (11 :: 0 :: be64 (f64_mul_c (f64_of_Z sec) 1000) ++ [0; 0]) 12.
Proof.
  cbn [encode0]. unfold encode_date0. change (11 :: 0 :: be64 ?x ++ [0; 0]) with ([11] ++ (0 :: be64 x) ++ [0;0]).
  eapply emits_bind; [apply write_byte_emits; unfold byte; lia|].
  eapply emits_bind; [apply encode_number_emits|].
  eapply emits_ext; [eapply emits_bind; [apply emits_write|apply emits_ret]|reflexivity|reflexivity].
Qed.

Lemma be64_split bits : 0 <= bits < 18446744073709551616 ->
  exists x, be64 bits = x ++ [bits mod 256] /\ len x = 7 /\ be_val x = bits / 256 /\ is_bytes x.
Proof.
  intros H. unfold be64, be32. exists [u8 (bits / 4294967296 / 16777216); u8 (bits / 4294967296 / 65536); u8 (bits / 4294967296 / 256);
    u8 (bits / 4294967296); u8 (bits / 16777216); u8 (bits / 65536); u8 (bits / 256)].
  split; [reflexivity|]. split; [reflexivity|]. split.
  - assert (E : be_val (be64 bits) = bits) by (rewrite be_val_be64, Z.mod_small by exact H; reflexivity).
    unfold be64, be32 in E. unfold be_val in *. cbn [app fold_left] in *. unfold u8 in *.
    generalize dependent (bits mod 256). intros. pose proof (Z.div_mod bits 256). lia.
  - repeat constructor; unfold u8; apply Z.mod_pos_bound; lia.
Qed.

Lemma decode0_encoded_date sec d rest e :
  let bits := f64_mul_c (f64_of_Z sec) 1000 in
  0 <= bits < 18446744073709551616 ->
  d_r d = contr ((11 :: 0 :: be64 bits ++ [0; 0]) ++ rest) e ->
  decode0 d = (set_r (contr (0 :: rest) e) d, Ok (VNum (bits / 256))).
Proof.
  intros bits Hb Hr. destruct (be64_split bits Hb) as (x & Hx & Hl & Hv & Hbx). rewrite Hx in Hr.
  assert (Hq : 0 <= bits / 256 < 18446744073709551616).
  { pose proof (Z.div_mod bits 256). pose proof (Z.mod_pos_bound bits 256). lia. }
  apply (decode0_adobe_date d (bits / 256) [bits mod 256; 0]); [exact Hq|reflexivity|].
  replace (be64 (bits / 256)) with (0 :: x).
  - rewrite Hr. cbn [app]. rewrite <- !app_assoc. reflexivity.
  - assert (H : be_val (0 :: x) = bits / 256).
    { replace (0 :: x) with ([0] ++ x) by reflexivity. rewrite be_val_app. rewrite Hv. reflexivity. }
    rewrite <- H. destruct x as [|a1 [|a2 [|a3 [|a4 [|a5 [|a6 [|a7 [|a8 x]]]]]]]]; unfold len in Hl; cbn [length] in Hl; try lia.
    change (0 :: [a1;a2;a3;a4;a5;a6;a7]) with ([0;a1;a2;a3] ++ [a4;a5;a6;a7]). rewrite be_val_app.
    inversion Hbx as [|? ? B1 T1]; inversion T1 as [|? ? B2 T2]; inversion T2 as [|? ? B3 T3];
    inversion T3 as [|? ? B4 T4]; inversion T4 as [|? ? B5 T5]; inversion T5 as [|? ? B6 T6]; inversion T6 as [|? ? B7 T7]; subst.
    assert (L : forall a b c f, byte a -> byte b -> byte c -> byte f -> 0 <= be_val [a;b;c;f] < 4294967296).
    { intros a b c f Ha Hb2 Hc Hf. unfold be_val, byte in *. cbn [fold_left]. lia. }
    assert (B0 : byte 0) by (unfold byte; lia).
    pose proof (L _ _ _ _ B0 B1 B2 B3) as L1. pose proof (L _ _ _ _ B4 B5 B6 B7) as L2.
    unfold be64. change (256 ^ len [a4;a5;a6;a7]) with 4294967296.
    rewrite Z.div_add_l by lia. rewrite (Z.div_small _ 4294967296) by exact L2. rewrite Z.add_0_r.
    symmetry. f_equal.
    + apply be32_val; assumption.
    + unfold be32, u8, be_val, byte in *. cbn [fold_left]. f_equal; [|f_equal; [|f_equal; [|f_equal]]]; lia.
Qed.
