(** Property C63, for every object with an empty key. *)
From Coq Require Import String Permutation.
From Verif Require Import Base.Go Base.GoFacts Base.IO Base.Float64 Proofs.IOFacts Model.AmfTypes Model.Amf3 Model.Amf0 Spec.Amf Spec.AmfRaw
  Proofs.AmfFacts Proofs.Amf0RT Proofs.Amf0More Proofs.AmfContr Proofs.Amf0Acc Proofs.AmfHeap Props.Amf0 Props.AmfRaw.
Import ListNotations.
Local Open Scope list_scope.
Local Open Scope Z_scope.

Lemma order_all xs : snd (in_order xs) = true -> fst (in_order xs) = concat (map fst xs).
Proof.
  induction xs as [|x xs IH]; [reflexivity|]. unfold in_order in *. cbn [fold_right map concat]. unfold and_then at 1 3. destruct (snd x) eqn:E; [|intros H; rewrite E in H; discriminate H]. cbn [fst snd]. intros H. rewrite (IH H). reflexivity.
Qed.
(** The first byte of what is written for a value is never the end marker. *)
Lemma first_byte t : supported t = true -> exists b s, fst (written0 t) = b :: s /\ b <> 9.
Proof.
  destruct t as [|b|b|w z|w z|s|s|s|l|fs|ty fs|]; intros HS; try discriminate; cbn [written0 wire0 done fst and_then snd app]; try (eexists; eexists; split; [reflexivity|discriminate]).
  destruct (len s <=? 65535); eexists; eexists; (split; [reflexivity|discriminate]).
Qed.
Lemma loop_fails fs : Forall field_ok fs -> forall fuel k loc d x rest e, x <> 9 -> (length (wire_fields fs) < fuel)%nat -> (length fs < k)%nat ->
  d_r d = contr (wire_fields fs ++ [0; 0] ++ x :: rest) e -> exists d', obj_loop (dec0 fuel) k loc d = (d', Err EOther).
Proof.
  induction 1 as [|[key t] fs [[Hkb Hkl] Hot] _ IH]; intros fuel k loc d x rest e Hx Hf Hk Hr; (destruct k as [|k]; [cbn [length] in Hk; lia|]).
  - cbn [wire_fields map concat app] in Hr. cbn [obj_loop]. change (0 :: 0 :: x :: rest) with (wire_utf8 [] ++ [x] ++ rest) in Hr.
    erewrite dbind_ok by (eapply decode_string0_contr; [exact Hr|rewrite len_nil; lia|right; left; discriminate]). cbn iota. unfold next_byte_must_be.
    erewrite dbind_ok by (eapply read_byte_contr; reflexivity). destruct (Z.eqb_spec x 9); [contradiction|]. eexists. reflexivity.
  - cbn [fst snd] in *. unfold wire_fields in Hf, Hr. cbn [map concat fst snd] in Hf, Hr. fold (wire_fields fs) in Hf, Hr. rewrite <- !app_assoc in Hr. rewrite !app_length in Hf.
    assert (Hkne : key <> []) by (intros ->; unfold len in Hkl; cbn [length] in Hkl; lia).
    set (d0 := set_r (contr (wire0 t ++ wire_fields fs ++ [0; 0] ++ x :: rest) e) d).
    assert (Es : decode_string0 d = (d0, Ok key)) by (unfold d0; apply decode_string0_contr; [exact Hr|lia|left; exact Hkne]).
    destruct (dec0_wire t Hot fuel d0 (wire_fields fs ++ [0; 0] ++ x :: rest) e ltac:(lia) eq_refl) as (d1 & v & hs1 & E1 & R1 & H1 & U1).
    { left. intros X. apply app_eq_nil in X. destruct X; discriminate. }
    cbn [obj_loop]. erewrite dbind_ok by exact Es. destruct key as [|k0 key]; [congruence|]. erewrite dbind_ok by exact E1. erewrite dbind_ok; [|reflexivity].
    eapply IH; [exact Hx|lia|cbn [length] in Hk; lia|exact R1].
Qed.

(** ** C63: an object with an empty key, whatever its value, and whatever members there are behind it, among them values of all kinds:
    Encode succeeds, and no decoder, whatever it has read before and whatever follows, reads what it wrote. *)
Theorem C63_empty_key_refuted : forall fs1 v fs2 w, (forall k t, In (k, t) fs1 -> is_bytes k /\ 0 < len k <= 65535 /\ ok0 t) -> supported v = true -> forallb (fun p => supported (snd p)) fs2 = true -> never_fails w ->
  exists w' enc n, encode0 (TObj (fs1 ++ ([], v) :: fs2)) w = (w', Ok n) /\ w_out w' = w_out w ++ enc /\
    forall d rest e, d_r d = cont (enc ++ rest) e -> exists d', decode0 d = (d', Err EOther).
Proof.
  intros fs1 v fs2 w H0 Hv H2 Hw. assert (H1 : Forall field_ok fs1) by (apply Forall_forall; intros [k t] Hp; destruct (H0 k t Hp) as (Q1 & Q2 & Q3); split; [split; assumption|exact Q3]). set (fs := fs1 ++ ([], v) :: fs2).
  assert (HF : forall p, In p fs1 -> written0 (snd p) = (wire0 (snd p), true)) by (intros p Hp; apply C181_within_limits; rewrite Forall_forall in H1; apply (H1 _ Hp)).
  assert (HS : supported (TObj fs) = true).
  { cbn [supported]. unfold fs. rewrite forallb_app. cbn [forallb snd]. rewrite Hv, H2, !andb_true_r. apply forallb_forall. intros p Hp. rewrite <- C181_fails_iff, (HF _ Hp). reflexivity. }
  destruct (C181_encode (TObj fs) w Hw) as (n & E). pose proof (C181_fails_iff (TObj fs)) as HW. rewrite HS in HW. rewrite HW in E. eexists. exists (fst (written0 (TObj fs))). eexists. split; [exact E|]. split; [reflexivity|].
  assert (X : exists x tail, fst (written0 (TObj fs)) = 3 :: wire_fields fs1 ++ [0; 0] ++ x :: tail /\ x <> 9).
  { destruct (first_byte v Hv) as (b & s & Eb & Nb). cbn [written0] in *. set (xs := map (fun p => and_then (done (wire_utf8 (fst p))) (written0 (snd p))) fs) in *.
    unfold and_then at 1 in HW. cbn [done snd fst] in HW. unfold and_then at 1. cbn [done snd fst]. unfold and_then at 1 in HW. destruct (snd (in_order xs)) eqn:EX; [|rewrite EX in HW; discriminate HW]. unfold and_then. rewrite EX. cbn [fst snd done]. rewrite (order_all xs EX).
    unfold xs, fs. rewrite !map_app, concat_app. cbn [map concat fst snd]. unfold and_then at 2. cbn [done fst snd]. rewrite Eb.
    exists b. eexists. split; [|exact Nb]. cbn [app]. f_equal. rewrite <- !app_assoc. f_equal.
    - unfold wire_fields. f_equal. rewrite map_map. apply map_ext_in. intros p Hp. rewrite (HF _ Hp). reflexivity.
    - change (wire_utf8 []) with [0; 0]. cbn [app]. reflexivity. }
  destruct X as (x & tail & EX & Nx). intros d rest e Hr. rewrite cont_contr in Hr. rewrite EX in Hr. unfold decode0. rewrite (fuel_for_contr _ _ _ Hr). cbn [app] in Hr. rewrite <- !app_assoc in Hr. cbn [app] in Hr.
  match goal with |- context [dec0 ?f d] => assert (HL : exists F, f = S F /\ (length (wire_fields fs1) < F)%nat /\ (length fs1 < F)%nat) end.
  { eexists. split; [reflexivity|]. cbn [app length]. rewrite !app_length. pose proof (wire_fields_length fs1). lia. }
  destruct HL as (F & -> & HF1 & HF2). cbn [dec0]. erewrite dbind_ok by (eapply read_byte_contr; exact Hr). cbn [Z.eqb Pos.eqb]. unfold decode_object0.
  match goal with |- context [set_r ?r d] => set (d0 := set_r r d) end.
  set (d1 := set_ref0 (d_ref0 d0 ++ [VObj (length (d_heap d0))]) (set_heap (d_heap d0 ++ [[]]) d0)).
  destruct (loop_fails fs1 H1 F F (length (d_heap d0)) d1 x (tail ++ rest) e Nx HF1 HF2 eq_refl) as (d' & L).
  exists d'. unfold dbind, alloc, ref0_push. cbv beta iota zeta. match type of L with ?l = _ => match goal with |- context [obj_loop ?a ?b ?c ?s] => change (obj_loop a b c s) with l end end. rewrite L. reflexivity.
Qed.
(** A member before the empty key, an object as its value, and a member behind it that has an empty key again. *)
Example C63_empty_key_ex :
  let fs1 := [(str "a", TBool true)] in let v := TObj [(str "b", TNil)] in let fs2 := [([], TStr (str "c"))] in
  let enc := [3; 0; 1; 97; 1; 1; 0; 0; 3; 0; 1; 98; 5; 0; 0; 9; 0; 0; 2; 0; 1; 99; 0; 0; 9] in
  (forall k t, In (k, t) fs1 -> is_bytes k /\ 0 < len k <= 65535 /\ ok0 t) /\ supported v = true /\ forallb (fun p => supported (snd p)) fs2 = true /\
  w_out (fst (encode0 (TObj (fs1 ++ ([], v) :: fs2)) buffer0)) = enc /\ snd (decode0 (fresh (bytes_reader enc))) = Err EOther.
Proof.
  cbv zeta. split; [|vm_compute; repeat split; reflexivity]. intros k t [K|[]]. injection K as <- <-. split; [|split].
  - vm_compute. constructor; [split; [discriminate|reflexivity]|constructor].
  - vm_compute. split; [reflexivity|discriminate].
  - constructor.
Qed.
Print Assumptions C63_empty_key_refuted.

(** Decoding from a reader of one piece leaves one. *)
Lemma kc_ref0 v : kc (ref0_push v). Proof. apply kc_same. reflexivity. Qed.
Lemma kc_string0 : kc decode_string0. Proof. unfold decode_string0. kc. Qed.
Lemma kc_long0 : kc decode_longstring0. Proof. unfold decode_longstring0. kc. Qed.
Lemma kc_reference0 : kc decode_reference0.
Proof. unfold decode_reference0. kc. apply kc_same. intros d. cbv beta. destruct (_ <? _); [reflexivity|]. destruct (_ =? _); reflexivity. Qed.
Lemma kc_obj0 dec : kc dec -> forall k loc, kc (obj_loop dec k loc).
Proof.
  intros HD. induction k as [|k IH]; intros loc; cbn [obj_loop]; [apply kc_fuel|]. apply kc_bind; [apply kc_string0|]. intros [|c key].
  - unfold next_byte_must_be. apply kc_bind; [apply kc_byte|intros; kc].
  - apply kc_bind; [exact HD|intros]. apply kc_bind; [apply kc_obj_set|intros; apply IH].
Qed.
Lemma kc_object0 dec k : kc dec -> kc (decode_object0 dec k).
Proof. intros HD. unfold decode_object0. apply kc_bind; [apply kc_alloc|intros]. apply kc_bind; [apply kc_ref0|intros]. apply kc_bind; [apply kc_obj0, HD|intros; apply kc_ret]. Qed.
Lemma kc_dec0 : forall f, kc (dec0 f).
Proof.
  induction f as [|f IH]; cbn [dec0]; [apply kc_fuel|]. apply kc_bind; [apply kc_byte|]. intros m.
  repeat match goal with |- kc (if ?c then _ else _) => destruct c end; unfold decode_ecma0, decode_strict0, decode_typed0, decode_date0; kc;
    first [apply kc_byte|apply kc_string0|apply kc_long0|apply kc_reference0|apply kc_object0, IH|apply kc_loop, IH|apply kc_ref0|apply kc_dec3].
Qed.

(** The keys a decoded map can have. *)
Definition short_keys (m : list (bytes * value)) : Prop := Forall (fun p => 0 < len (fst p) <= 65535) m.
Lemma set_short k v m : 0 < len k <= 65535 -> short_keys m -> short_keys (map_set k v m).
Proof.
  intros Hk H. induction H as [|[k1 v1] m H1 Hm IH]; cbn [map_set]; [constructor; [exact Hk|constructor]|]. destruct (bytes_eqb k k1); constructor; assumption.
Qed.
Lemma nth_upd (f : omap -> omap) : forall i l m, nth_error l i = Some m -> nth_error (upd_nth i f l) i = Some (f m).
Proof. induction i as [|i IH]; intros [|x l] m H; try discriminate; cbn [nth_error upd_nth] in *; [injection H as ->; reflexivity|apply IH, H]. Qed.
Lemma string_short d s e d' k : is_bytes s -> d_r d = contr s e -> decode_string0 d = (d', Ok k) ->
  len k <= 65535 /\ d_heap d' = d_heap d /\ exists rest, d_r d' = contr rest e /\ is_bytes rest.
Proof.
  intros HB Hr E. assert (HH : d_heap d' = d_heap d).
  { apply (f_equal fst) in E. cbn [fst] in E. subst d'. unfold decode_string0, dbind, read_be, read_bytes.
    destruct (read_full 2 (d_r d)) as [r1 [y|y| |]]; try reflexivity. destruct (read _ _) as [r2 [z|z| |]]; reflexivity. }
  unfold decode_string0 in E. apply bind_ok in E. destruct E as (d1 & n & E1 & E2).
  destruct (read_be_inv 2 _ _ _ _ _ ltac:(lia) Hr E1) as (a & rest & -> & L & -> & R1). apply is_bytes_split in HB. destruct HB as [Ha HB].
  destruct (read_bytes_inv _ _ _ _ _ _ R1 E2) as (rest' & -> & R2 & L2 & _). apply is_bytes_split in HB. destruct HB as [_ HB].
  destruct (be16_inv a Ha L) as [_ B]. change (2 ^ 16) with 65536 in B. split; [lia|]. split; [exact HH|]. exists rest'. split; assumption.
Qed.
Lemma loop_short f : forall k loc d d' m s e, is_bytes s -> d_r d = contr s e -> nth_error (d_heap d) loc = Some m -> short_keys m ->
  obj_loop (dec0 f) k loc d = (d', Ok tt) -> exists m', nth_error (d_heap d') loc = Some m' /\ short_keys m'.
Proof.
  induction k as [|k IH]; intros loc d d' m s e HB Hr Hm Hs E; [discriminate E|]. cbn [obj_loop] in E. apply bind_ok in E. destruct E as (d1 & key & E1 & E2).
  destruct (string_short _ _ _ _ _ HB Hr E1) as (HL & HH & rest & R1 & B1). rewrite <- HH in Hm. destruct key as [|k0 key].
  - exists m. split; [|exact Hs]. apply (f_equal fst) in E2. cbn [fst] in E2. subst d'. replace (d_heap (fst (next_byte_must_be 9 d1))) with (d_heap d1); [exact Hm|].
    unfold next_byte_must_be, read_byte, read_bytes, dbind, dret. destruct (read 1 (d_r d1)) as [r [y|y| |]]; try reflexivity. destruct (len y =? 1); [|reflexivity]. destruct (_ =? _); reflexivity.
  - apply bind_ok in E2. destruct E2 as (d2 & v & E2 & E3). apply bind_ok in E3. destruct E3 as (d3 & u & E3 & E4). unfold obj_set in E3. injection E3 as <- _.
    assert (HI : (S loc <= length (d_heap d1))%nat) by (apply nth_error_Some; rewrite Hm; discriminate).
    destruct (keeps_dec0 (S loc) f d1 HI) as (_ & HK & _). rewrite E2 in HK. cbn [fst] in HK.
    assert (Hm2 : nth_error (d_heap d2) loc = Some m).
    { rewrite <- Hm, <- (firstn_skipn (S loc) (d_heap d2)), <- (firstn_skipn (S loc) (d_heap d1)), HK.
      rewrite !nth_error_app1; [reflexivity| |]; rewrite ?firstn_length; lia. }
    destruct (kc_dec0 f d1 rest e R1) as (p & rest2 & -> & R2). rewrite E2 in R2. cbn [fst] in R2. apply is_bytes_split in B1.
    refine (IH loc _ d' _ rest2 e (proj2 B1) _ _ _ E4); [exact R2|cbn [set_heap d_heap]; apply nth_upd, Hm2|]. apply set_short; [|exact Hs]. split; [unfold len; cbn [length]; lia|exact HL].
Qed.

(** ** C63: an object with any key that is empty or longer than 65535 bytes: Encode succeeds if all values are of supported kinds,
    and whatever a decoder reads from that, it is never the same object: that key is not in it. *)
Theorem C63_never_comes_back_refuted : forall fs k w, In k (map fst fs) -> (k = [] \/ 65535 < len k) -> forallb (fun p => supported (snd p)) fs = true -> never_fails w ->
  exists w' enc n, encode0 (TObj fs) w = (w', Ok n) /\ w_out w' = w_out w ++ enc /\
    forall d rest e d' x p, is_bytes (enc ++ rest) -> d_r d = cont (enc ++ rest) e -> decode0 d = (d', Ok x) -> unfolds (d_heap d') x p ->
      exists qs, p = PObj qs /\ ~ In k (map fst qs).
Proof.
  intros fs k w _ Hk HS Hw. destruct (C181_encode (TObj fs) w Hw) as (n & E). pose proof (C181_fails_iff (TObj fs)) as HW. cbn [supported] in HW. rewrite HS in HW. rewrite HW in E.
  eexists. exists (fst (written0 (TObj fs))). eexists. split; [exact E|]. split; [reflexivity|].
  assert (X : exists s, fst (written0 (TObj fs)) = 3 :: s) by (eexists; reflexivity). destruct X as (s & ->).
  intros d rest e d' x p HB Hr ED HU. rewrite cont_contr in Hr. cbn [app] in Hr, HB. unfold decode0 in ED. rewrite (fuel_for_contr _ _ _ Hr) in ED.
  match type of ED with dec0 ?f d = _ => assert (HL : exists F, f = S F) end. { eexists. reflexivity. }
  destruct HL as (F & HF). rewrite HF in ED. clear HF. cbn [dec0] in ED. erewrite dbind_ok in ED by (eapply read_byte_contr; exact Hr). cbn [Z.eqb Pos.eqb] in ED.
  apply bind_ok in ED. destruct ED as (d1 & loc & ED & EX). injection EX as <- <-. unfold decode_object0 in ED.
  apply bind_ok in ED. destruct ED as (d2 & l2 & EA & ED). unfold alloc in EA. injection EA as <- <-.
  apply bind_ok in ED. destruct ED as (d3 & u3 & EA & ED). unfold ref0_push in EA. injection EA as <- _.
  apply bind_ok in ED. destruct ED as (d4 & u4 & EL & ED). injection ED as <- <-. destruct u4. inversion HB as [|? ? _ HB']; subst.
  eapply (loop_short F F _ _ _ [] (s ++ rest) e) in EL; [|exact HB'|reflexivity| |constructor].
  2:{ cbn [set_ref0 set_heap set_r d_heap]. rewrite nth_error_app2 by lia. rewrite Nat.sub_diag. reflexivity. }
  destruct EL as (m' & EM & SM). inversion HU as [| | | | | | | | | |loc m fs0 fs' Hn HF HP| |]; subst. eexists. split; [reflexivity|]. intros HI.
  apply in_map_iff in HI. destruct HI as ([k2 p2] & <- & HI). cbn [fst] in *. apply (Permutation_in _ (Permutation_sym HP)) in HI.
  rewrite EM in Hn. injection Hn as <-. clear - SM HF HI Hk. induction HF as [|[k1 v1] [k3 p3] m fs [E1 _] HF IH]; [destruct HI|]. cbn [fst] in E1. subst k3. inversion SM as [|? ? S1 S2]; subst. cbn [fst] in S1.
  destruct HI as [HI|HI]; [injection HI as -> ->|exact (IH S2 HI)]. destruct Hk as [->|Hk]; [unfold len in S1; cbn [length] in S1; lia|lia].
Qed.
Print Assumptions C63_never_comes_back_refuted.
(** A key of 65537 bytes, for which the decoder reads the object with the one key that has its first byte, and succeeds. *)
Definition long_key : bytes := [97; 5; 0; 0; 9] ++ repeat 1 (Z.to_nat 65532).
Example C63_never_comes_back_ex :
  In long_key (map fst [(long_key, TBool true)]) /\ 65535 < len long_key /\ forallb (fun p => supported (snd p)) [(long_key, TBool true)] = true /\
  let got := decode0 (fresh (bytes_reader (w_out (fst (encode0 (TObj [(long_key, TBool true)]) buffer0))))) in
  snd got = Ok (VObj 0) /\ d_heap (fst got) = [[(str "a", VNil)]].
Proof. split; [left; reflexivity|]. vm_compute. repeat split; reflexivity. Qed.
