(** Property C159: the memory a Decode call asks for. *)
From Verif Require Import Base.Go Base.GoFacts Base.IO Base.Float64 Proofs.IOFacts Model.AmfTypes Model.Amf3 Model.Amf0 Model.AmfAlloc
  Spec.Amf Spec.AmfAlloc Proofs.AmfFacts Proofs.Amf0RT Proofs.Amf0More Proofs.Amf3RT Proofs.AmfContr Proofs.AmfAlloc Proofs.AmfAllocLow.

(** What is still to be read. *)
Definition unread (d : dstate) : bytes := r_rest (d_r d).

(** ** C159 *)
(** The decoders with a log are the decoders. *)
Theorem C159_log : forall d, snd (a_decode0 d) = decode0 d /\ snd (a_decode3 d) = decode3 d.
Proof. intros d. split; [apply er_dec0|apply er_dec3]. Qed.
Print Assumptions C159_log.

(** The log leaves nothing out: the bytes read, also by a failing call, were read into its buffers. [d] may have been used
    before, but knows no externalizable class and no array with a dense part (Decode leaves neither behind). *)
Definition plain_tables (d : dstate) : Prop :=
  (forall t, In t (d_trait3 d) -> t_ext t = false) /\ (forall x xs loc, ~ In (VEcma (x :: xs) loc) (d_obj3 d)).
Lemma plain_fair d : is_bytes (unread d) -> plain_tables d -> fair d.
Proof.
  intros H1 [H2 H3]. split; [exact H1|]. split; [apply Forall_forall, H2|]. apply Forall_forall. intros v Hv. destruct v; try reflexivity.
  destruct dense; [reflexivity|]. elim (H3 _ _ _ Hv).
Qed.
Theorem C159_reads : forall a d l d' r, a = a_decode0 \/ a = a_decode3 -> is_bytes (unread d) -> plain_tables d -> a d = (l, (d', r)) ->
  len (unread d) - len (unread d') <= total l /\ is_bytes (unread d') /\ plain_tables d'.
Proof.
  intros a d l d' r Ha HB HP E. pose proof (plain_fair d HB HP) as G.
  assert (H : fair d' /\ exists p, r_rest (d_r d) = p ++ r_rest (d_r d') /\ len p <= total l).
  { destruct Ha as [-> | ->]; [pose proof (lq_dec0 (fuel_for d) d G) as H|pose proof (lq_dec3 (fuel_for d) d G) as H]; unfold a_decode0, a_decode3 in E; rewrite E in H;
      destruct H as (G' & p & Hp & L & _); (split; [exact G'|]); exists p; split; assumption. }
  destruct H as ((G1 & G2 & G3) & p & Hp & L). unfold unread in *. rewrite Hp, len_app. split; [lia|]. split; [exact G1|]. rewrite Forall_forall in G2, G3. split; [exact G2|].
  intros x xs loc Hx. specialize (G3 _ Hx). discriminate.
Qed.
Print Assumptions C159_reads.
(** And 16 bytes for each element of an AMF3 array's dense part. *)
Theorem C159_arrays : forall d l d' dense loc, is_bytes (unread d) -> plain_tables d -> a_decode3 d = (l, (d', Ok (VEcma dense loc))) ->
  len (unread d) - len (unread d') + 16 * len dense <= total l.
Proof.
  intros d l d' dense loc HB HP E. pose proof (lq_dec3 (fuel_for d) d (plain_fair d HB HP)) as H. unfold a_decode3 in E. rewrite E in H.
  destruct H as (_ & p & Hp & _ & _ & H). unfold unread. rewrite Hp, len_app. unfold wv in H. cbn [dense_of] in H. lia.
Qed.
Print Assumptions C159_arrays.
Example C159_reads_example : plain_tables (fresh (bytes_reader [9; 5; 1; 1; 12; 5; 7; 8])) /\
  fst (a_decode3 (fresh (bytes_reader [9; 5; 1; 1; 12; 5; 7; 8]))) = [1; 1; 1; 32; 1; 1; 1; 2] /\
  snd (snd (a_decode3 (fresh (bytes_reader [9; 5; 1; 1; 12; 5; 7; 8])))) = Ok (VEcma [VNil; VBytes [7; 8]] (Some 0%nat)).
Proof. split; [split; [intros ? []|intros ? ? ? []]|]. split; vm_compute; reflexivity. Qed.

(** An AMF3 value other than an array or an object asks for exactly as many bytes as it reads, unless it uses up the input. *)
Theorem C159_amf3_leaf : forall m s e d l d' v, is_bytes (m :: s) -> plain_tables d -> d_r d = cont (m :: s) e -> m <> 9 -> m <> 10 ->
  a_decode3 d = (l, (d', Ok v)) -> unread d' <> [] -> total l = len (m :: s) - len (unread d').
Proof.
  intros m s e d l d' v HB HP Hr H9 H10 E HN. rewrite cont_contr in Hr. assert (U : unread d = m :: s) by (unfold unread; rewrite Hr; apply contr_rest).
  destruct (C159_reads a_decode3 d l d' _ (or_intror eq_refl) ltac:(rewrite U; exact HB) HP E) as [L _]. rewrite U in L.
  destruct (sx_leaf m d s e l d' _ H9 H10 Hr E) as (rest & R & G). unfold unread in *. rewrite R, contr_rest in *. specialize (G HN). lia.
Qed.
Print Assumptions C159_amf3_leaf.
Example C159_leaf_example : fst (a_decode3 (fresh (bytes_reader [8; 1; 0; 0; 0; 0; 0; 0; 0; 0; 1]))) = [1; 1; 8] /\
  unread (fst (snd (a_decode3 (fresh (bytes_reader [8; 1; 0; 0; 0; 0; 0; 0; 0; 0; 1]))))) = [1].
Proof. split; vm_compute; reflexivity. Qed.

(** AMF0 without AMF3 inside, any reader: a successful call asks for exactly as many bytes as it reads, and a failing one for at most 4 GiB more. *)
Theorem C159_amf0 : forall d l d' r, is_bytes (unread d) -> ~ In 17 (unread d) -> a_decode0 d = (l, (d', r)) ->
  match r with
  | Ok _ => total l = len (unread d) - len (unread d')
  | _ => total l <= len (unread d) - len (unread d') + (2 ^ 32 - 1)
  end.
Proof.
  intros d l d' r H1 H2 E. pose proof (sq_dec0 (fuel_for d) d (conj H1 H2)) as H. unfold a_decode0 in E. rewrite E in H. destruct H as (p & Hp & H).
  unfold unread. rewrite Hp, len_app. change (2 ^ 32) with 4294967296. destruct r; lia.
Qed.
Print Assumptions C159_amf0.
Example C159_amf0_example : fst (a_decode0 (fresh (bytes_reader [2; 0; 3; 97; 98; 99]))) = [1; 2; 3] /\
  snd (snd (a_decode0 (fresh (bytes_reader [2; 0; 3; 97; 98; 99])))) = Ok (VStr [97; 98; 99]).
Proof. split; vm_compute; reflexivity. Qed.

(** The 4 GiB are real: five bytes make Decode ask for any size below 2^32. *)
Theorem C159_amf0_refuted : forall n d e, 0 < n < 2 ^ 32 -> d_r d = cont (12 :: be32 n) e ->
  exists d' err, a_decode0 d = ([1; 4; n], (d', Err err)).
Proof.
  intros n d e Hn Hr. change (2 ^ 32) with 4294967296 in Hn. rewrite cont_contr in Hr.
  unfold a_decode0. rewrite (fuel_for_contr _ _ _ Hr). cbn [a_dec0].
  assert (B : a_read_byte d = ([1], (set_r (contr (be32 n) e) d, Ok 12))).
  { pose proof (er_read_byte d) as H. rewrite (read_byte_contr _ _ _ _ Hr) in H. rewrite <- H. 
    unfold a_read_byte, a_read_bytes, abind, make_, lift in *. destruct (read_bytes 1 d) as [d1 [x|x| |]]; reflexivity. }
  rewrite (abind_ok _ _ _ _ _ _ B). cbn [Z.eqb Pos.eqb orb]. unfold a_decode_longstring0.
  set (d1 := set_r (contr (be32 n) e) d).
  assert (R : read_be 4 d1 = (set_r (contr [] e) d1, Ok n)).
  { change 4 with (len (be32 n)). rewrite (read_be_contr d1 (be32 n) [] e) by reflexivity. rewrite be_val_be32, Z.mod_small by lia. reflexivity. }
  set (d2 := set_r (contr [] e) d1) in *.
  assert (F : exists err, read_bytes n d2 = (d2, Err err)).
  { unfold read_bytes, read, d2. cbn [contr set_r d_r r_chunks r_end]. replace (n =? 0) with false by lia. cbn [andb]. eexists. reflexivity. }
  destruct F as [err F]. exists d2, err.
  unfold a_read_be, a_read_bytes, abind, make_, lift. rewrite !R, !F. reflexivity.
Qed.
Print Assumptions C159_amf0_refuted.
Example C159_amf0_refuted_example : fst (a_decode0 (fresh (bytes_reader [12; 255; 255; 255; 255]))) = [1; 4; 2 ^ 32 - 1].
Proof. vm_compute. reflexivity. Qed.

(** AMF3, even when the call succeeds: at most six bytes give a value of any size below 2^28. *)
Theorem C159_amf3_refuted : forall n x d e, 0 < n < 2 ^ 28 -> d_r d = cont (12 :: wire_u29 (2 * n + 1) ++ [x]) e ->
  len (unread d) <= 6 /\
  exists l d' s, a_decode3 d = (l, (d', Ok (VBytes s))) /\ n <= total l /\ len s = n /\ s = x :: repeat 0 (Z.to_nat (n - 1)).
Proof.
  intros n x d e Hn Hr. change (2 ^ 28) with 268435456 in Hn. rewrite cont_contr in Hr. split.
  { unfold unread. rewrite Hr, contr_rest, len_cons, len_app. unfold wire_u29. repeat match goal with |- context [if ?c then _ else _] => destruct c end; unfold len; cbn [length]; lia. }
  unfold a_decode3. rewrite (fuel_for_contr _ _ _ Hr). cbn [a_dec3].
  assert (B : a_read_byte d = ([1], (set_r (contr (wire_u29 (2 * n + 1) ++ [x]) e) d, Ok 12))).
  { pose proof (er_read_byte d) as H. rewrite (read_byte_contr _ _ _ _ Hr) in H. rewrite <- H.
    unfold a_read_byte, a_read_bytes, abind, make_, lift in *. destruct (read_bytes 1 d) as [d1 [y|y| |]]; reflexivity. }
  rewrite (abind_ok _ _ _ _ _ _ B). cbn [Z.eqb Pos.eqb orb]. set (d1 := set_r _ d).
  assert (U : exists l, a_decode_u29 d1 = (l, (set_r (contr [x] e) d1, Ok (false, n))) /\ 0 <= total l).
  { pose proof (er_du29 d1) as H. rewrite (decode_u29_contr d1 n [x] e) in H by (try reflexivity; lia). pose proof (nn_du29 d1) as N.
    destruct (a_decode_u29 d1) as [l y]. cbn [fst snd] in *. exists l. subst y. split; [reflexivity|exact N]. }
  destruct U as (l & U & NL). unfold a_decode_bytearray3. rewrite (abind_ok _ _ _ _ _ _ U). cbn iota beta. replace (n =? 0) with false by lia.
  set (d2 := set_r _ d1).
  assert (R : exists d3, read_into n d2 = (d3, Ok (x :: repeat 0 (Z.to_nat (n - 1))))).
  { eexists. unfold read_into, read, d2. cbn [set_r d_r contr r_chunks r_end r_with]. replace (n =? 0) with false by lia. change (len [x]) with 1. replace (1 <=? n) with true by lia.
    cbn [app]. reflexivity. }
  destruct R as [d3 R]. unfold a_read_into, abind, make_, lift. rewrite R. cbn [fst snd app]. do 3 eexists. split; [reflexivity|].
  cbn [total]. rewrite total_app. cbn [total]. split; [lia|]. split; [|reflexivity]. unfold len. cbn [length]. rewrite repeat_length. lia.
Qed.
Print Assumptions C159_amf3_refuted.
Example C159_amf3_refuted_example : fst (a_decode3 (fresh (bytes_reader [12; 9; 7]))) = [1; 1; 4] /\
  snd (snd (a_decode3 (fresh (bytes_reader [12; 9; 7])))) = Ok (VBytes [7; 0; 0; 0]).
Proof. split; vm_compute; reflexivity. Qed.

(** Otherwise: input that arrives in one piece and is not used up, either decoder. Missing: inputs that are used up, and readers in pieces. *)
Theorem C159_partial : forall a d s e l d' v, a = a_decode0 \/ a = a_decode3 -> d_r d = cont s e -> a d = (l, (d', Ok v)) -> unread d' <> [] ->
  total l <= 17 * (len s - len (unread d')).
Proof.
  intros a d s e l d' v Ha Hr E HN. rewrite cont_contr in Hr.
  assert (S : sp 16 a) by (destruct Ha as [-> | ->]; intros d0 s0 e0 E0; [apply (sp_dec0 (fuel_for d0) d0 s0 e0 E0)|apply (sp_dec3 (fuel_for d0) d0 s0 e0 E0)]).
  specialize (S d s e Hr). rewrite E in S. destruct S as (rest & R & L & S). unfold unread in *. rewrite R, contr_rest in *. specialize (S HN). lia.
Qed.
Print Assumptions C159_partial.
(** An array of four nulls, with a byte to follow: 16 bytes for each null and one for each byte read. *)
Example C159_partial_example : fst (a_decode3 (fresh (bytes_reader [9; 9; 1; 1; 1; 1; 1; 0]))) = [1; 1; 1; 64; 1; 1; 1; 1] /\
  snd (snd (a_decode3 (fresh (bytes_reader [9; 9; 1; 1; 1; 1; 1; 0])))) = Ok (VEcma [VNil; VNil; VNil; VNil] (Some 0%nat)) /\
  unread (fst (snd (a_decode3 (fresh (bytes_reader [9; 9; 1; 1; 1; 1; 1; 0]))))) = [0].
Proof. repeat split; vm_compute; reflexivity. Qed.
