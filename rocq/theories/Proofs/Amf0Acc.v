(** AMF0: what Decode accepts is a layout of the specification. *)
From Verif Require Import Base.Go Base.GoFacts Base.IO Base.Float64 Proofs.IOFacts
  Model.AmfTypes Model.Amf3 Model.Amf0 Spec.Amf Spec.AmfDoc Proofs.AmfFacts Proofs.AmfContr Proofs.AmfKeep.
Local Ltac Zify.zify_post_hook ::= Z.div_mod_to_equations.

Lemma is_bytes_split a b : is_bytes (a ++ b) -> is_bytes a /\ is_bytes b. Proof. apply Forall_app. Qed.

(** Inversion of a step that succeeded on one piece s. *)
Lemma bind_ok {A B} (m : Dm A) (k : A -> Dm B) d d' b : dbind m k d = (d', Ok b) -> exists d1 a, m d = (d1, Ok a) /\ k a d1 = (d', Ok b).
Proof. unfold dbind. destruct (m d) as [d1 [a|x| |]]; intros E; try discriminate. exists d1, a. split; [reflexivity|exact E]. Qed.
Lemma read_bytes_inv n d s e d' b : d_r d = contr s e -> read_bytes n d = (d', Ok b) ->
  exists rest, s = b ++ rest /\ d_r d' = contr rest e /\ len b = n /\ (n = 0 -> rest <> [] \/ e_zero e = false).
Proof.
  intros Hr E. unfold read_bytes in E. rewrite Hr in E. destruct (read_split n s e) as (a & rest & E1 & R & H).
  destruct (read n (contr s e)) as [r x]. cbn [fst snd] in *. destruct x as [y|x| |]; try discriminate. destruct (Z.eqb_spec (len y) n); inversion E; subst.
  destruct (H b eq_refl) as [-> H0]. exists rest. split; [reflexivity|]. split; [reflexivity|]. split; [reflexivity|]. intros Hn. specialize (H0 Hn). destruct a; [exact H0|unfold len in Hn; cbn [length] in Hn; lia].
Qed.
Lemma read_byte_inv d s e d' b : d_r d = contr s e -> read_byte d = (d', Ok b) -> exists rest, s = b :: rest /\ d_r d' = contr rest e.
Proof.
  intros Hr E. unfold read_byte in E. apply bind_ok in E. destruct E as (d1 & a & E1 & E2). inversion E2; subst.
  destruct (read_bytes_inv _ _ _ _ _ _ Hr E1) as (rest & -> & R & L & _). exists rest. split; [|exact R]. destruct a as [|x [|y a]]; unfold len in L; cbn [length] in L; try lia. reflexivity.
Qed.
Lemma read_be_inv n d s e d' v : 0 < n -> d_r d = contr s e -> read_be n d = (d', Ok v) -> exists a rest, s = a ++ rest /\ len a = n /\ v = be_val a /\ d_r d' = contr rest e.
Proof.
  intros Hn Hr E. unfold read_be in E. rewrite Hr in E. destruct (read_full_split n s e Hn) as (a & rest & E1 & R & H).
  destruct (read_full n (contr s e)) as [r x]. cbn [fst snd] in *. destruct x as [y|x| |]; try discriminate. inversion E; subst. destruct (H y eq_refl) as [-> L].
  exists a, rest. split; [reflexivity|]. split; [exact L|]. split; [reflexivity|]. reflexivity.
Qed.
Lemma be16_inv a : is_bytes a -> len a = 2 -> a = be16 (be_val a) /\ 0 <= be_val a < 2 ^ 16.
Proof.
  intros H L. destruct a as [|x [|y [|z a]]]; unfold len in L; cbn [length] in L; try lia.
  unfold is_bytes in H. rewrite !Forall_cons_iff in H. destruct H as (B1 & B2 & _). unfold byte in *. rewrite be_val_16. unfold be16, u8. change (2 ^ 16) with 65536. split; [repeat f_equal|]; lia.
Qed.
Lemma be32_inv a : is_bytes a -> len a = 4 -> a = be32 (be_val a) /\ 0 <= be_val a < 2 ^ 32.
Proof.
  intros H L. destruct a as [|x [|y [|z [|t [|u a]]]]]; unfold len in L; cbn [length] in L; try lia.
  unfold is_bytes in H. rewrite !Forall_cons_iff in H. destruct H as (B1 & B2 & B3 & B4 & _). split; [symmetry; apply be32_val; assumption|].
  unfold byte in *. rewrite be_val_32. change (2 ^ 32) with 4294967296. lia.
Qed.
Lemma be64_inv a : is_bytes a -> len a = 8 -> a = be64 (be_val a) /\ 0 <= be_val a < 2 ^ 64.
Proof.
  intros H L. replace a with (take a 4 ++ drop a 4) in * by apply take_drop. apply is_bytes_split in H. destruct H as [H1 H2].
  assert (L1 : len (take a 4) = 4) by (rewrite len_app in L; unfold take, drop, len in *; rewrite firstn_length, skipn_length in *; change (Z.to_nat 4) with 4%nat in *; lia).
  assert (L2 : len (drop a 4) = 4) by (rewrite len_app in L; lia). clear L.
  destruct (be32_inv _ H1 L1) as [E1 R1]. destruct (be32_inv _ H2 L2) as [E2 R2]. change (2 ^ 32) with 4294967296 in *.
  assert (E : be_val (take a 4 ++ drop a 4) = be_val (take a 4) * 4294967296 + be_val (drop a 4)).
  { clear - L2. generalize dependent (drop a 4). intros dr L2. generalize (take a 4). intros tk. destruct dr as [|x [|y [|z [|t [|u l]]]]]; unfold len in L2; cbn [length] in L2; try lia. unfold be_val. rewrite fold_left_app. generalize (fold_left (fun a b : Z => a * 256 + b) tk 0). intros q. cbn [fold_left]. lia. }
  rewrite E. unfold be64. split; [|change (2 ^ 64) with 18446744073709551616; lia].
  rewrite E1 at 1. rewrite E2 at 1. clear - R1 R2. generalize dependent (be_val (take a 4)). generalize dependent (be_val (drop a 4)). intros q R2 p R1.
  replace ((p * 4294967296 + q) / 4294967296) with p by lia. f_equal. unfold be32, u8. repeat (apply f_equal2; [lia|]). reflexivity.
Qed.

(** The reference table while decoding. *)
Fixpoint frefs (n : Z) (fs : list (bytes * doc0)) : Prop := match fs with [] => True | (_, x) :: fs' => refs_in n x /\ frefs (n + slots x) fs' end.
Fixpoint erefs (n : Z) (l : list doc0) : Prop := match l with [] => True | x :: l' => refs_in n x /\ erefs (n + slots x) l' end.
Notation fslots fs := (fold_right Z.add 0 (map (fun p => slots (snd p)) fs)).
Notation eslots l := (fold_right Z.add 0 (map slots l)).
Lemma refs_object n fs : refs_in n (A_object fs) = frefs (n + 1) fs. Proof. reflexivity. Qed.
Lemma refs_ecma n c fs : refs_in n (A_ecma c fs) = frefs (n + 1) fs. Proof. reflexivity. Qed.
Lemma refs_typed n ty fs : refs_in n (A_typed ty fs) = frefs (n + 2) fs. Proof. reflexivity. Qed.
Lemma refs_strict n l : refs_in n (A_strict l) = erefs (n + 1) l. Proof. reflexivity. Qed.

Notation rlen d := (len (d_ref0 d)).

Definition end_ok (t : doc0) (rest : bytes) (e : rend) : Prop := rest <> [] \/ e_zero e = false \/ doc_ends_empty t = false.
Definition acc (m : Dm value) : Prop := forall d s e d' v, is_bytes s -> d_r d = contr s e -> m d = (d', Ok v) ->
  exists t rest, s = layout0 t ++ rest /\ doc_ok true t /\ d_r d' = contr rest e /\ end_ok t rest e /\ refs_in (rlen d) t /\ rlen d' = rlen d + slots t.

Lemma string_inv d s e d' b : is_bytes s -> d_r d = contr s e -> decode_string0 d = (d', Ok b) ->
  exists rest, s = wire_utf8 b ++ rest /\ len b <= 65535 /\ d_r d' = contr rest e /\ (b = [] -> rest <> [] \/ e_zero e = false).
Proof.
  intros HB Hr E. apply bind_ok in E. destruct E as (d1 & n & E1 & E2). destruct (read_be_inv 2 _ _ _ _ _ ltac:(lia) Hr E1) as (a & r1 & -> & L & -> & R1).
  apply is_bytes_split in HB. destruct HB as [HB1 HB2]. destruct (be16_inv a HB1 L) as [Ea Ra]. change (2 ^ 16) with 65536 in Ra.
  destruct (read_bytes_inv _ _ _ _ _ _ R1 E2) as (rest & -> & R & Lb & HE). exists rest. unfold wire_utf8. rewrite Lb, <- Ea, <- app_assoc. split; [reflexivity|]. split; [lia|]. split; [exact R|]. intros ->. apply HE. rewrite <- Lb. reflexivity.
Qed.
Lemma longstring_inv d s e d' b : is_bytes s -> d_r d = contr s e -> decode_longstring0 d = (d', Ok b) ->
  exists rest, s = wire_utf8_long b ++ rest /\ len b < 2 ^ 32 /\ d_r d' = contr rest e /\ (b = [] -> rest <> [] \/ e_zero e = false).
Proof.
  intros HB Hr E. apply bind_ok in E. destruct E as (d1 & n & E1 & E2). destruct (read_be_inv 4 _ _ _ _ _ ltac:(lia) Hr E1) as (a & r1 & -> & L & -> & R1).
  apply is_bytes_split in HB. destruct HB as [HB1 HB2]. destruct (be32_inv a HB1 L) as [Ea Ra]. change (2 ^ 32) with 4294967296 in *.
  destruct (read_bytes_inv _ _ _ _ _ _ R1 E2) as (rest & -> & R & Lb & HE). exists rest. unfold wire_utf8_long. rewrite Lb, <- Ea, <- app_assoc. split; [reflexivity|]. split; [lia|]. split; [exact R|]. intros ->. apply HE. rewrite <- Lb. reflexivity.
Qed.

Lemma len_pos {A} (l : list A) : l <> [] -> 0 < len l. Proof. destruct l; [congruence|]. intros _. unfold len. cbn [length]. lia. Qed.

Section Acc.
  Variable dec : Dm value.
  Hypothesis HD : acc dec.
  Notation fields fs := (concat (map (fun p => wire_utf8 (fst p) ++ layout0 (snd p)) fs)).
  Definition fok (p : bytes * doc0) := 0 < len (fst p) <= 65535 /\ doc_ok true (snd p).
  Lemma obj_loop_inv : forall fuel loc d s e d', is_bytes s -> d_r d = contr s e -> obj_loop dec fuel loc d = (d', Ok tt) ->
    exists fs rest, s = fields fs ++ [0; 0; 9] ++ rest /\ Forall fok fs /\ d_r d' = contr rest e /\ frefs (rlen d) fs /\ rlen d' = rlen d + fslots fs.
  Proof.
    induction fuel as [|f IH]; intros loc d s e d' HB Hr E; cbn [obj_loop] in E; [discriminate|].
    apply bind_ok in E. destruct E as (d1 & key & E1 & E2). destruct (string_inv _ _ _ _ _ HB Hr E1) as (r1 & -> & L & R1 & _).
    apply is_bytes_split in HB. destruct HB as [_ HB1]. apply (kr_ok _ _ _ _ kr_string0) in E1. destruct key as [|c key].
    - unfold next_byte_must_be in E2. apply bind_ok in E2. destruct E2 as (d2 & m & E3 & E4). destruct (read_byte_inv _ _ _ _ _ R1 E3) as (rest & -> & R2).
      destruct (Z.eqb_spec m 9) as [->|]; [|discriminate]. inversion E4; subst. apply (kr_ok _ _ _ _ kr_byte) in E3. exists [], rest. split; [reflexivity|]. split; [constructor|]. split; [exact R2|]. split; [exact I|]. cbn [map fold_right]. rewrite E3, E1. lia.
    - apply bind_ok in E2. destruct E2 as (d2 & v & E3 & E4). destruct (HD _ _ _ _ _ HB1 R1 E3) as (t & r2 & -> & Ht & R2 & _ & T1 & T2).
      apply is_bytes_split in HB1. destruct HB1 as [_ HB2]. apply bind_ok in E4. destruct E4 as (d3 & u & E5 & E6).
      assert (R3 : d_r d3 = contr r2 e) by (inversion E5; subst; exact R2).
      assert (T3 : d_ref0 d3 = d_ref0 d2) by (inversion E5; subst; reflexivity).
      destruct (IH _ _ _ _ _ HB2 R3 E6) as (fs & rest & -> & Hfs & R4 & T4 & T5). exists ((c :: key, t) :: fs), rest. split; [|split; [|split; [exact R4|]]].
      + cbn [map concat fst snd]. rewrite <- !app_assoc. reflexivity.
      + constructor; [|exact Hfs]. split; cbn [fst snd]; [split; [apply len_pos; discriminate|exact L]|exact Ht].
      + rewrite E1 in *. rewrite T3, T2 in *. cbn [frefs map fold_right snd]. split; [split; assumption|lia].
  Qed.
  Lemma object_inv fuel d s e d' loc : is_bytes s -> d_r d = contr s e -> decode_object0 dec fuel d = (d', Ok loc) ->
    exists fs rest, s = fields fs ++ [0; 0; 9] ++ rest /\ Forall fok fs /\ d_r d' = contr rest e /\ frefs (rlen d + 1) fs /\ rlen d' = rlen d + (1 + fslots fs).
  Proof.
    intros HB Hr E. unfold decode_object0 in E. apply bind_ok in E. destruct E as (d1 & l1 & E1 & E2). apply bind_ok in E2. destruct E2 as (d2 & u & E2 & E3).
    apply bind_ok in E3. destruct E3 as (d3 & [] & E3 & E4). inversion E1; subst. inversion E2; subst. inversion E4; subst. 
    destruct (obj_loop_inv _ _ (set_ref0 _ (set_heap _ d)) s e _ HB Hr E3) as (fs & rest & G1 & G2 & G3 & G4 & G5). exists fs, rest. cbn [set_ref0 set_heap d_ref0] in G4, G5. rewrite len_app in G4, G5. change (len [VObj (Datatypes.length (d_heap d))]) with 1 in *. split; [exact G1|]. split; [exact G2|]. split; [exact G3|]. split; [exact G4|lia].
  Qed.
  Lemma loop_inv : forall fuel n d s e d' vs, is_bytes s -> d_r d = contr s e -> loop_n dec fuel n d = (d', Ok vs) ->
    exists l rest, s = concat (map layout0 l) ++ rest /\ len l = Z.max 0 n /\ Forall (doc_ok true) l /\ d_r d' = contr rest e /\ end_ok (A_strict l) rest e /\ erefs (rlen d) l /\ rlen d' = rlen d + eslots l.
  Proof.
    assert (Hnil : forall (n : Z) s e d, n <= 0 -> exists l rest, s = concat (map layout0 l) ++ rest /\ len l = Z.max 0 n /\ Forall (doc_ok true) l /\ contr s e = contr rest e /\ end_ok (A_strict l) rest e /\ erefs (rlen d) l /\ rlen d = rlen d + eslots l).
    { intros n s e d Hn. exists [], s. split; [reflexivity|]. split; [unfold len; cbn; lia|]. split; [constructor|]. split; [reflexivity|]. split; [right; right; reflexivity|]. split; [exact I|cbn; lia]. }
    induction fuel as [|f IH]; intros n d s e d' vs HB Hr E; cbn [loop_n] in E; (destruct (Z.leb_spec n 0); [inversion E; subst; rewrite Hr; apply Hnil; assumption|]); [discriminate|].
    apply bind_ok in E. destruct E as (d1 & v & E1 & E2). destruct (HD _ _ _ _ _ HB Hr E1) as (t & r1 & -> & Ht & R1 & HE1 & T1 & T2). apply is_bytes_split in HB. destruct HB as [_ HB].
    apply bind_ok in E2. destruct E2 as (d2 & l & E2 & E3). inversion E3; subst. destruct (IH _ _ _ _ _ _ HB R1 E2) as (ts & rest & -> & L & Hts & R2 & HE2 & T3 & T4).
    exists (t :: ts), rest. split; [cbn [map concat]; rewrite <- app_assoc; reflexivity|]. split; [rewrite len_cons; lia|]. split; [constructor; assumption|]. split; [exact R2|].
    split; [|rewrite T2 in *; cbn [erefs map fold_right]; split; [split; assumption|lia]].
    destruct HE2 as [HE2|[HE2|HE2]]; [left; exact HE2|right; left; exact HE2|]. destruct ts as [|t2 ts].
    - cbn [map concat app] in HE1. destruct HE1 as [H1|[H1|H1]]; [left; exact H1|right; left; exact H1|right; right; exact H1].
    - right; right. destruct (exists_last (l := t2 :: ts) ltac:(discriminate)) as (l' & x & El). rewrite El in *. change (t :: l' ++ [x]) with ((t :: l') ++ [x]). cbn [doc_ends_empty] in *. rewrite map_app, rev_app_distr in *. exact HE2.
  Qed.
End Acc.

Lemma fok_all fs : Forall fok fs -> all_of (map (fun p => 0 < len (fst p) <= 65535 /\ doc_ok true (snd p)) fs).
Proof. intros H. apply all_of_map. exact H. Qed.

Ltac krs := first [apply kr_byte|apply kr_string0|apply kr_longstring0|apply kr_read_be|apply kr_read_bytes|apply kr_dec3].
Ltac kk := cbn [slots]; repeat match goal with H : ?m ?d = (?d', Ok _) |- context [d_ref0 ?d'] => assert_fails (constr_eq d d'); let K := fresh "K" in assert (K : d_ref0 d' = d_ref0 d) by (eapply (kr_ok m); [krs|exact H]); rewrite !K; clear K end; lia.
Ltac leaf t := exists t; eexists; split; [reflexivity|]; split; [|split; [first [eassumption|reflexivity]|split; [right; right; reflexivity|split; [exact I|kk]]]].
Theorem dec0_acc : forall fuel, acc (dec0 fuel).
Proof.
  induction fuel as [|f IH]; intros d s e d' v HB Hr E; cbn [dec0] in E; [discriminate|].
  apply bind_ok in E. destruct E as (d1 & m & E1 & E). destruct (read_byte_inv _ _ _ _ _ Hr E1) as (s1 & -> & R1).
  assert (HB1 : is_bytes s1) by (inversion HB; assumption).
  destruct (Z.eqb_spec m 0) as [->|_].
  { apply bind_ok in E. destruct E as (d2 & b & E2 & E3). inversion E3; subst. destruct (read_be_inv 8 _ _ _ _ _ ltac:(lia) R1 E2) as (a & rest & -> & L & -> & R2).
    apply is_bytes_split in HB1. destruct (be64_inv a (proj1 HB1) L) as [Ea Ra]. exists (A_number (be_val a)), rest. cbn [layout0 app]. rewrite <- Ea. split; [reflexivity|]. split; [exact Ra|]. split; [exact R2|]. split; [right; right; reflexivity|]. split; [exact I|kk]. }
  destruct (Z.eqb_spec m 1) as [->|_].
  { apply bind_ok in E. destruct E as (d2 & b & E2 & E3). inversion E3; subst. destruct (read_byte_inv _ _ _ _ _ R1 E2) as (rest & -> & R2).
    leaf (A_boolean b). cbn [doc_ok]. inversion HB1; assumption. }
  destruct (Z.eqb_spec m 2) as [->|_].
  { apply bind_ok in E. destruct E as (d2 & b & E2 & E3). inversion E3; subst. destruct (string_inv _ _ _ _ _ HB1 R1 E2) as (rest & -> & L & R2 & HE).
    exists (A_string b), rest. split; [reflexivity|]. split; [exact L|]. split; [exact R2|]. split; [unfold end_ok; destruct b; [destruct (HE eq_refl); tauto|right; right; reflexivity]|]. split; [exact I|kk]. }
  destruct (Z.eqb_spec m 3) as [->|_].
  { apply bind_ok in E. destruct E as (d2 & b & E2 & E3). inversion E3; subst. destruct (object_inv _ IH _ _ _ _ _ _ HB1 R1 E2) as (fs & rest & -> & Hfs & R2 & T1 & T2).
    exists (A_object fs), rest. split; [cbn [layout0 app]; rewrite <- app_assoc; reflexivity|]. split; [apply fok_all, Hfs|]. split; [exact R2|]. split; [right; right; reflexivity|]. rewrite T2, (kr_ok _ _ _ _ kr_byte E1) in *. split; [exact T1|reflexivity]. }
  destruct (Z.eqb_spec m 4) as [->|_]; [discriminate|].
  destruct (Z.eqb_spec m 5) as [->|_]; [inversion E; subst; leaf A_null; exact I|].
  destruct (Z.eqb_spec m 6) as [->|_]; [inversion E; subst; leaf A_undefined; exact I|].
  destruct (Z.eqb_spec m 13) as [->|_]; [inversion E; subst; leaf A_unsupported; exact I|]. cbn [orb] in E.
  destruct (Z.eqb_spec m 7) as [->|_].
  { apply bind_ok in E. destruct E as (d2 & b & E2 & E3). destruct (read_be_inv 2 _ _ _ _ _ ltac:(lia) R1 E2) as (a & rest & -> & L & -> & R2).
    apply is_bytes_split in HB1. destruct (be16_inv a (proj1 HB1) L) as [Ea Ra]. destruct (Z.ltb_spec (len (d_ref0 d2)) (be_val a)); [discriminate|]. destruct (Z.eqb_spec (be_val a) (len (d_ref0 d2))); inversion E3; subst.
    exists (A_reference (be_val a)), rest. cbn [layout0 app]. rewrite <- Ea. split; [reflexivity|]. split; [split; [reflexivity|exact Ra]|]. split; [exact R2|]. split; [right; right; reflexivity|].
    apply (kr_ok _ _ _ _ (kr_read_be 2)) in E2. apply (kr_ok _ _ _ _ kr_byte) in E1. rewrite E2, E1 in *. cbn [refs_in slots]. lia. }
  destruct (Z.eqb_spec m 8) as [->|_].
  { unfold decode_ecma0 in E. apply bind_ok in E. destruct E as (d2 & n & E2 & E3). destruct (read_be_inv 4 _ _ _ _ _ ltac:(lia) R1 E2) as (a & r2 & -> & L & -> & R2).
    apply is_bytes_split in HB1. destruct HB1 as [HBa HB1]. destruct (be32_inv a HBa L) as [Ea Ra]. apply bind_ok in E3. destruct E3 as (d3 & loc & E3 & E4). inversion E4; subst.
    destruct (object_inv _ IH _ _ _ _ _ _ HB1 R2 E3) as (fs & rest & -> & Hfs & R3 & T1 & T2).
    exists (A_ecma (be_val a) fs), rest. split; [cbn [layout0 app]; rewrite <- Ea, <- !app_assoc; reflexivity|]. split; [split; [exact Ra|apply fok_all, Hfs]|]. split; [exact R3|]. split; [right; right; reflexivity|].
    rewrite T2, (kr_ok _ _ _ _ (kr_read_be 4) E2), (kr_ok _ _ _ _ kr_byte E1) in *. split; [exact T1|reflexivity]. }
  destruct (Z.eqb_spec m 10) as [->|_].
  { unfold decode_strict0 in E. apply bind_ok in E. destruct E as (d2 & n & E2 & E3). destruct (read_be_inv 4 _ _ _ _ _ ltac:(lia) R1 E2) as (a & r2 & -> & L & -> & R2).
    apply is_bytes_split in HB1. destruct HB1 as [HBa HB1]. destruct (be32_inv a HBa L) as [Ea Ra]. apply bind_ok in E3. destruct E3 as (d3 & u & E3 & E4). inversion E3; subst.
    apply bind_ok in E4. destruct E4 as (d4 & l & E4 & E5). inversion E5; subst. destruct (loop_inv _ IH _ _ (set_ref0 (d_ref0 d2 ++ [VArr []]) d2) r2 e _ _ HB1 R2 E4) as (ts & rest & -> & Lt & Hts & R3 & HE & T1 & T2).
    exists (A_strict ts), rest. split; [cbn [layout0 app]; rewrite Lt, Z.max_r by lia; rewrite <- Ea, <- !app_assoc; reflexivity|]. split; [split; [lia|apply all_of_map, Hts]|]. split; [exact R3|]. split; [exact HE|].
    cbn [set_ref0 d_ref0] in T1, T2. rewrite len_app in T1, T2. change (len [VArr []]) with 1 in T1, T2. rewrite T2, (kr_ok _ _ _ _ (kr_read_be 4) E2), (kr_ok _ _ _ _ kr_byte E1) in *. split; [exact T1|cbn [slots]; lia]. }
  destruct (Z.eqb_spec m 11) as [->|_].
  { unfold decode_date0 in E. apply bind_ok in E. destruct E as (d2 & b & E2 & E3). destruct (read_be_inv 8 _ _ _ _ _ ltac:(lia) R1 E2) as (a & r2 & -> & L & -> & R2).
    apply is_bytes_split in HB1. destruct HB1 as [HBa HB1]. destruct (be64_inv a HBa L) as [Ea Ra]. apply bind_ok in E3. destruct E3 as (d3 & z & E3 & E4). inversion E4; subst.
    destruct (read_bytes_inv _ _ _ _ _ _ R2 E3) as (rest & -> & R3 & Lz & _). apply is_bytes_split in HB1. destruct (be16_inv z (proj1 HB1) Lz) as [Ez Rz].
    exists (A_date (be_val a) (be_val z)), rest. split; [cbn [layout0 app]; rewrite <- Ea, <- Ez, <- app_assoc; reflexivity|]. split; [split; assumption|]. split; [exact R3|]. split; [right; right; reflexivity|]. split; [exact I|kk]. }
  destruct (Z.eqb_spec m 12) as [->|_].
  { apply bind_ok in E. destruct E as (d2 & b & E2 & E3). inversion E3; subst. destruct (longstring_inv _ _ _ _ _ HB1 R1 E2) as (rest & -> & L & R2 & HE).
    exists (A_long b), rest. split; [reflexivity|]. split; [exact L|]. split; [exact R2|]. split; [unfold end_ok; destruct b; [destruct (HE eq_refl); tauto|right; right; reflexivity]|]. split; [exact I|kk]. }
  destruct (Z.eqb_spec m 14) as [->|_]; [discriminate|].
  destruct (Z.eqb_spec m 15) as [->|_].
  { apply bind_ok in E. destruct E as (d2 & b & E2 & E3). inversion E3; subst. destruct (longstring_inv _ _ _ _ _ HB1 R1 E2) as (rest & -> & L & R2 & HE).
    exists (A_xml b), rest. split; [reflexivity|]. split; [exact L|]. split; [exact R2|]. split; [unfold end_ok; destruct b; [destruct (HE eq_refl); tauto|right; right; reflexivity]|]. split; [exact I|kk]. }
  destruct (Z.eqb_spec m 16) as [->|_].
  { unfold decode_typed0 in E. apply bind_ok in E. destruct E as (d2 & u & E2 & E3). inversion E2; subst. apply bind_ok in E3. destruct E3 as (d3 & ty & E3 & E4).
    destruct (string_inv (set_ref0 (d_ref0 d1 ++ [VTyped [] None]) d1) s1 e _ _ HB1 R1 E3) as (r2 & -> & L & R2 & _). apply is_bytes_split in HB1. destruct HB1 as [_ HB1].
    apply bind_ok in E4. destruct E4 as (d4 & loc & E4 & E5). inversion E5; subst. destruct (object_inv _ IH _ _ _ _ _ _ HB1 R2 E4) as (fs & rest & -> & Hfs & R3 & T1 & T2).
    exists (A_typed ty fs), rest. split; [cbn [layout0 app]; rewrite <- !app_assoc; reflexivity|]. split; [split; [exact L|apply fok_all, Hfs]|]. split; [exact R3|]. split; [right; right; reflexivity|].
    apply (kr_ok _ _ _ _ kr_string0) in E3. rewrite E3 in T1, T2. cbn [set_ref0 d_ref0] in T1, T2. rewrite len_app in T1, T2. change (len [VTyped [] None]) with 1 in T1, T2. rewrite T2, (kr_ok _ _ _ _ kr_byte E1) in *.
    rewrite refs_typed. split; [replace (rlen d + 2) with (rlen d + 1 + 1) by lia; exact T1|cbn [slots]; lia]. }
  destruct (Z.eqb_spec m 17) as [->|_]; [|discriminate].
  destruct (kc_dec3 f d1 s1 e R1) as (p & rest & -> & R2). rewrite E in R2. cbn [fst] in R2.
  exists (A_avmplus p), rest. split; [reflexivity|]. split; [reflexivity|]. split; [exact R2|]. split; [right; right; reflexivity|]. split; [exact I|kk].
Qed.
