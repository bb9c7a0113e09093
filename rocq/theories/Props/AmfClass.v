(** Property C222: the class names of typed objects in AMF0. *)
From Coq Require Import String Permutation.
From Verif Require Import Base.Go Base.GoFacts Base.IO Base.Float64 Proofs.IOFacts Model.AmfTypes Model.Amf3 Model.Amf0 Spec.Amf Spec.AmfRaw
  Proofs.AmfFacts Proofs.Amf0RT Proofs.Amf0More Proofs.AmfContr Proofs.Amf0Acc Proofs.AmfHeap Props.Amf0 Props.AmfRaw Props.AmfKeys.
Import ListNotations.
Local Open Scope list_scope.
Local Open Scope Z_scope.

(** ** C222: a typed object whose class name is longer than 65535 bytes, or that has a key that is empty or longer than that: Encode
    succeeds if all values are of supported kinds, and whatever a decoder reads from that, it does not have that class, or that key. *)
Theorem C222_never_comes_back_refuted : forall ty fs w, forallb (fun p => supported (snd p)) fs = true -> never_fails w ->
  exists w' enc n, encode0 (TTyped ty fs) w = (w', Ok n) /\ w_out w' = w_out w ++ enc /\
    forall d rest e d' x p, is_bytes (enc ++ rest) -> d_r d = cont (enc ++ rest) e -> decode0 d = (d', Ok x) -> unfolds (d_heap d') x p ->
      exists ty' qs, p = PTyped ty' qs /\ (65535 < len ty -> ty' <> ty) /\ (forall k, In k (map fst fs) -> k = [] \/ 65535 < len k -> ~ In k (map fst qs)).
Proof.
  intros ty fs w HS Hw. destruct (C181_encode (TTyped ty fs) w Hw) as (n & E). pose proof (C181_fails_iff (TTyped ty fs)) as HW. cbn [supported] in HW. rewrite HS in HW. rewrite HW in E.
  eexists. exists (fst (written0 (TTyped ty fs))). eexists. split; [exact E|]. split; [reflexivity|].
  assert (X : exists s, fst (written0 (TTyped ty fs)) = 16 :: s) by (eexists; reflexivity). destruct X as (s & ->).
  intros d rest e d' x p HB Hr ED HU. rewrite cont_contr in Hr. cbn [app] in Hr, HB. unfold decode0 in ED. rewrite (fuel_for_contr _ _ _ Hr) in ED.
  match type of ED with dec0 ?f d = _ => assert (HL : exists F, f = S F) end. { eexists. reflexivity. }
  destruct HL as (F & HF). rewrite HF in ED. clear HF. cbn [dec0] in ED. erewrite dbind_ok in ED by (eapply read_byte_contr; exact Hr). cbn [Z.eqb Pos.eqb orb] in ED. unfold decode_typed0, decode_object0 in ED.
  apply bind_ok in ED. destruct ED as (d1 & u1 & EA & ED). unfold ref0_push in EA. injection EA as <- _. inversion HB as [|? ? _ HB']; subst.
  apply bind_ok in ED. destruct ED as (d2 & ty' & ES & ED). eapply string_short in ES; [|exact HB'|reflexivity]. destruct ES as (HT & HH & rest2 & R2 & B2).
  apply bind_ok in ED. destruct ED as (d1 & loc & ED & EX). injection EX as <- <-.
  apply bind_ok in ED. destruct ED as (d3 & l2 & EA & ED). unfold alloc in EA. injection EA as <- <-.
  apply bind_ok in ED. destruct ED as (d3 & u3 & EA & ED). unfold ref0_push in EA. injection EA as <- _.
  apply bind_ok in ED. destruct ED as (d4 & u4 & EL & ED). injection ED as <- <-. destruct u4.
  eapply (loop_short F F _ _ _ [] rest2 e) in EL; [|exact B2|exact R2| |constructor].
  2:{ cbn [set_ref0 set_heap set_r d_heap]. rewrite nth_error_app2 by lia. rewrite Nat.sub_diag. reflexivity. }
  destruct EL as (m' & EM & SM). inversion HU as [| | | | | | | | | | |ty2 loc m fs0 fs' Hn HF HP|]; subst. eexists. eexists. split; [reflexivity|]. split; [intros Q ->; lia|]. intros k _ Hk HI.
  apply in_map_iff in HI. destruct HI as ([k2 p2] & <- & HI). cbn [fst] in *. apply (Permutation_in _ (Permutation_sym HP)) in HI.
  rewrite EM in Hn. injection Hn as <-. clear - SM HF HI Hk. induction HF as [|[k1 v1] [k3 p3] m fs [E1 _] HF IH]; [destruct HI|]. cbn [fst] in E1. subst k3. inversion SM as [|? ? S1 S2]; subst. cbn [fst] in S1.
  destruct HI as [HI|HI]; [injection HI as -> ->|exact (IH S2 HI)]. destruct Hk as [->|Hk]; [unfold len in S1; cbn [length] in S1; lia|lia].
Qed.
(** Up to that length, the empty name included, they do come back. *)
Theorem C222_class_partial : forall ty fs w, is_bytes ty -> len ty <= 65535 -> (forall k t, In (k, t) fs -> is_bytes k /\ 0 < len k <= 65535 /\ ok0 t) -> NoDup (map fst fs) -> never_fails w ->
  exists w' enc, encode0 (TTyped ty fs) w = (w', Ok (len enc)) /\ w_out w' = w_out w ++ enc /\ forall d rest e, d_r d = cont (enc ++ rest) e ->
    exists d' x, decode0 d = (d', Ok x) /\ d_r d' = cont rest e /\ unfolds (d_heap d') x (PTyped ty (map (fun p => (fst p, img0 (snd p))) fs)).
Proof.
  intros ty fs w Ht Hl HF HN Hw. destruct (C52_amf0_round_trip (TTyped ty fs) w) as (w' & enc & E1 & E2 & E3); [|exact Hw|].
  { cbn [ok0]. split; [exact Ht|]. split; [exact Hl|]. split; [exact HN|]. apply all_of_map, Forall_forall. intros [k t] Hp. destruct (HF k t Hp) as (Q1 & Q2 & Q3). split; [split; assumption|exact Q3]. }
  exists w', enc. split; [exact E1|]. split; [exact E2|]. intros d rest e Hr.
  destruct (E3 d rest e Hr) as (d' & x & H1 & H2 & H3 & _); [right; right; reflexivity|]. exists d', x. split; [exact H1|]. split; [exact H2|exact H3].
Qed.
(** A class name of 65537 bytes: the decoder takes its first byte for the name, the rest of it for members, and succeeds. *)
Definition long_class : bytes := [67; 0; 1; 97; 5; 0; 0; 9] ++ repeat 1 (Z.to_nat 65529).
Example C222_ex : 65535 < len long_class /\ forallb (fun p => supported (snd p)) [(str "k", TNil)] = true /\
  let got := decode0 (fresh (bytes_reader (w_out (fst (encode0 (TTyped long_class [(str "k", TNil)]) buffer0))))) in
  snd got = Ok (VTyped (str "C") (Some 0%nat)) /\ d_heap (fst got) = [[(str "a", VNil)]].
Proof. vm_compute. repeat split; reflexivity. Qed.
Example C222_class_ex : is_bytes (str "T") /\ len (str "T") <= 65535 /\ (forall k t, In (k, t) [(str "a", TArr [TBool true; TNil])] -> is_bytes k /\ 0 < len k <= 65535 /\ ok0 t).
Proof.
  split; [vm_compute; constructor; [split; [discriminate|reflexivity]|constructor]|]. split; [vm_compute; discriminate|]. intros k t [K|[]]. injection K as <- <-. split; [|split].
  - vm_compute. constructor; [split; [discriminate|reflexivity]|constructor].
  - vm_compute. split; [reflexivity|discriminate].
  - vm_compute. repeat split; reflexivity.
Qed.
Print Assumptions C222_never_comes_back_refuted.
Print Assumptions C222_class_partial.
