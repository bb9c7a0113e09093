(** Properties C63 and C222, for what a decoder makes of any object or ECMA array, and for EncodeEcmaArray. *)
From Coq Require Import String Permutation.
From Verif Require Import Base.Go Base.GoFacts Base.IO Base.Float64 Proofs.IOFacts Model.AmfTypes Model.Amf3 Model.Amf0 Spec.Amf Spec.AmfRaw
  Proofs.AmfFacts Proofs.Amf0RT Proofs.Amf0More Proofs.AmfContr Proofs.Amf0Acc Proofs.AmfHeap Proofs.Amf0Enc Proofs.Flv Proofs.AmfFail Props.Amf0 Props.AmfRaw Props.AmfFail Props.AmfKeys.
Import ListNotations.
Local Open Scope list_scope.
Local Open Scope Z_scope.

Lemma object_short f d d' loc s e : is_bytes s -> d_r d = contr s e -> decode_object0 (dec0 f) f d = (d', Ok loc) ->
  exists m, nth_error (d_heap d') loc = Some m /\ short_keys m.
Proof.
  intros HB Hr ED. unfold decode_object0 in ED.
  apply bind_ok in ED. destruct ED as (d2 & l2 & EA & ED). unfold alloc in EA. injection EA as <- <-.
  apply bind_ok in ED. destruct ED as (d3 & u3 & EA & ED). unfold ref0_push in EA. injection EA as <- _.
  apply bind_ok in ED. destruct ED as (d4 & u4 & EL & ED). injection ED as <- <-. destruct u4.
  eapply (loop_short f f _ _ _ [] s e) in EL; [exact EL|exact HB|exact Hr| |constructor].
  cbn [set_ref0 set_heap set_r d_heap]. rewrite nth_error_app2 by lia. rewrite Nat.sub_diag. reflexivity.
Qed.

(** ** C63: whatever bytes follow the marker of an object or an ECMA array, a decoded object has keys of 1 to 65535 bytes only, whatever the decoder has read before. *)
Theorem C63_decoded_keys : forall b s d e d' x p, b = 3 \/ b = 8 -> is_bytes s -> d_r d = cont (b :: s) e -> decode0 d = (d', Ok x) -> unfolds (d_heap d') x p ->
  exists qs, p = PObj qs /\ forall k, In k (map fst qs) -> 1 <= len k <= 65535.
Proof.
  intros b s d e d' x p Hb HB Hr ED HU. rewrite cont_contr in Hr. unfold decode0 in ED. rewrite (fuel_for_contr _ _ _ Hr) in ED.
  match type of ED with dec0 ?f d = _ => assert (HL : exists F, f = S F) end. { eexists. reflexivity. }
  destruct HL as (F & HF). rewrite HF in ED. clear HF. cbn [dec0] in ED. erewrite dbind_ok in ED by (eapply read_byte_contr; exact Hr).
  assert (X : exists loc m, x = VObj loc /\ nth_error (d_heap d') loc = Some m /\ short_keys m).
  { destruct Hb as [-> | ->]; cbn [Z.eqb Pos.eqb] in ED.
    - apply bind_ok in ED. destruct ED as (d1 & loc & ED & EX). injection EX as <- <-. destruct (object_short F (set_r (contr s e) d) _ _ s e HB eq_refl ED) as (m & E1 & E2). exists loc, m. auto.
    - unfold decode_ecma0 in ED. apply bind_ok in ED. destruct ED as (d1 & n & E1 & ED). destruct (read_be_inv 4 (set_r (contr s e) d) s e _ _ ltac:(lia) eq_refl E1) as (a & rest & -> & L & -> & R1).
      apply is_bytes_split in HB. apply bind_ok in ED. destruct ED as (d2 & loc & ED & EX). injection EX as <- <-.
      destruct (object_short _ _ _ _ rest e (proj2 HB) R1 ED) as (m & E2 & E3). exists loc, m. auto. }
  destruct X as (loc & m' & -> & EM & SM). inversion HU as [| | | | | | | | | |loc0 m fs0 fs' Hn HF HP| |]; subst. eexists. split; [reflexivity|]. intros k HI.
  apply in_map_iff in HI. destruct HI as ([k2 p2] & <- & HI). cbn [fst] in *. apply (Permutation_in _ (Permutation_sym HP)) in HI.
  rewrite EM in Hn. injection Hn as <-. clear - SM HF HI. induction HF as [|[k1 v1] [k3 p3] m fs [E1 _] HF IH]; [destruct HI|]. cbn [fst] in E1. subst k3. inversion SM as [|? ? S1 S2]; subst. cbn [fst] in S1.
  destruct HI as [HI|HI]; [injection HI as -> ->; lia|exact (IH S2 HI)].
Qed.
Print Assumptions C63_decoded_keys.
(** An ECMA array that announces 7 members and has one. *)
Example C63_decoded_keys_ex : snd (decode0 (fresh (bytes_reader (8 :: [0; 0; 0; 7; 0; 1; 97; 5; 0; 0; 9])))) = Ok (VObj 0).
Proof. vm_compute. reflexivity. Qed.

(** ** C63: EncodeEcmaArray of members with an empty or over-long key likewise succeeds, and that key never comes back. *)
Theorem C63_ecma_refuted : forall fs k w, In k (map fst fs) -> (k = [] \/ 65535 < len k) -> forallb (fun p => supported (snd p)) fs = true -> never_fails w ->
  exists w' enc n, encode_ecma0 fs w = (w', Ok n) /\ w_out w' = w_out w ++ enc /\
    forall d rest e d' x p, is_bytes (enc ++ rest) -> d_r d = cont (enc ++ rest) e -> decode0 d = (d', Ok x) -> unfolds (d_heap d') x p ->
      exists qs, p = PObj qs /\ ~ In k (map fst qs).
Proof.
  intros fs k w _ Hk HS Hw. assert (T : tells (encode_ecma0 fs) (written_ecma fs) (counted_ecma fs)).
  { unfold encode_ecma0, written_ecma, counted_ecma.
    change (done (8 :: be32 (len fs))) with (and_then (done [8]) (done (be32 (len fs)))). rewrite and_assoc. eapply tells_step; [apply write_byte_emits; unfold byte; lia|].
    eapply tells_step; [rewrite be32_u32; apply emits_write|]. rewrite <- (and_nil (and_then _ (done [0; 0; 9]))). eapply tells_bind; [apply (object_tells fs false), Forall_forall; intros p _; apply encode_tells|].
    intros _. eapply tells_eq; [apply tells_ret|reflexivity|lia]. }
  pose proof (C181_fails_iff (TObj fs)) as HW. cbn [supported] in HW. rewrite HS in HW.
  assert (HE : snd (written_ecma fs) = true) by exact HW. specialize (T w Hw). rewrite HE in T.
  destruct T as (c & T). eexists. exists (fst (written_ecma fs)). eexists. split; [exact T|]. split; [reflexivity|].
  assert (X : exists s, fst (written_ecma fs) = 8 :: s) by (eexists; reflexivity). destruct X as (s & ->).
  intros d rest e d' x p HB Hr ED HU. cbn [app] in HB, Hr. inversion HB as [|? ? _ HB']; subst.
  destruct (C63_decoded_keys 8 _ d e d' x p (or_intror eq_refl) HB' Hr ED HU) as (qs & -> & Q). exists qs. split; [reflexivity|]. intros HI. apply Q in HI.
  destruct Hk as [->|Hk]; [unfold len in HI; cbn [length] in HI; lia|lia].
Qed.
Print Assumptions C63_ecma_refuted.
Example C63_ecma_ex :
  let got := decode0 (fresh (bytes_reader (w_out (fst (encode_ecma0 [(long_key, TBool true)] buffer0))))) in
  snd got = Ok (VObj 0) /\ d_heap (fst got) = [[(str "a", VNil)]].
Proof. vm_compute. split; reflexivity. Qed.

(** ** C222: whatever bytes follow the marker of a typed object, a decoded one has a class name of at most 65535 bytes and keys of 1 to 65535 bytes only. *)
Theorem C222_decoded_class : forall s d e d' x p, is_bytes s -> d_r d = cont (16 :: s) e -> decode0 d = (d', Ok x) -> unfolds (d_heap d') x p ->
  exists ty qs, p = PTyped ty qs /\ len ty <= 65535 /\ forall k, In k (map fst qs) -> 1 <= len k <= 65535.
Proof.
  intros s d e d' x p HB Hr ED HU. rewrite cont_contr in Hr. unfold decode0 in ED. rewrite (fuel_for_contr _ _ _ Hr) in ED.
  match type of ED with dec0 ?f d = _ => assert (HL : exists F, f = S F) end. { eexists. reflexivity. }
  destruct HL as (F & HF). rewrite HF in ED. clear HF. cbn [dec0] in ED. erewrite dbind_ok in ED by (eapply read_byte_contr; exact Hr). cbn [Z.eqb Pos.eqb orb] in ED. unfold decode_typed0 in ED.
  apply bind_ok in ED. destruct ED as (d1 & u1 & EA & ED). unfold ref0_push in EA. injection EA as <- _.
  apply bind_ok in ED. destruct ED as (d2 & ty & ES & ED). eapply string_short in ES; [|exact HB|reflexivity]. destruct ES as (HT & HH & rest2 & R2 & B2).
  apply bind_ok in ED. destruct ED as (d1 & loc & ED & EX). injection EX as <- <-. destruct (object_short _ _ _ _ rest2 e B2 R2 ED) as (m' & EM & SM).
  inversion HU as [| | | | | | | | | | |ty2 loc2 m fs0 fs' Hn HF HP|]; subst. eexists. eexists. split; [reflexivity|]. split; [exact HT|]. intros k HI.
  apply in_map_iff in HI. destruct HI as ([k2 p2] & <- & HI). cbn [fst] in *. apply (Permutation_in _ (Permutation_sym HP)) in HI.
  rewrite EM in Hn. injection Hn as <-. clear - SM HF HI. induction HF as [|[k1 v1] [k3 p3] m fs [E1 _] HF IH]; [destruct HI|]. cbn [fst] in E1. subst k3. inversion SM as [|? ? S1 S2]; subst. cbn [fst] in S1.
  destruct HI as [HI|HI]; [injection HI as -> ->; lia|exact (IH S2 HI)].
Qed.
Print Assumptions C222_decoded_class.
Example C222_decoded_class_ex : snd (decode0 (fresh (bytes_reader (16 :: [0; 1; 99; 0; 1; 97; 5; 0; 0; 9])))) = Ok (VTyped (str "c") (Some 0%nat)).
Proof. vm_compute. reflexivity. Qed.
