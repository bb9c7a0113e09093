(** AMF0: where Decode panics. *)
From Verif Require Import Base.Go Base.GoFacts Base.IO Base.Float64 Proofs.IOFacts
  Model.AmfTypes Model.Amf3 Model.Amf0 Spec.Amf Spec.AmfDoc Proofs.AmfFacts Proofs.AmfContr Proofs.AmfKeep Proofs.AmfNoPanic Proofs.Amf0Acc Proofs.Amf0RT Proofs.Amf0Doc.
Local Ltac Zify.zify_post_hook ::= Z.div_mod_to_equations.

Lemma bind_panic {A B} (m : Dm A) (k : A -> Dm B) d : snd (dbind m k d) = Panic -> snd (m d) = Panic \/ exists d1 a, m d = (d1, Ok a) /\ snd (k a d1) = Panic.
Proof. unfold dbind. destruct (m d) as [d1 [a|x| |]]; cbn [snd]; intros E; try discriminate; [right; exists d1, a; split; [reflexivity|exact E]|left; reflexivity]. Qed.
Lemma bind_panic_np {A B} (m : Dm A) (k : A -> Dm B) d : np m -> snd (dbind m k d) = Panic -> exists d1 a, m d = (d1, Ok a) /\ snd (k a d1) = Panic.
Proof. intros N E. destruct (bind_panic _ _ _ E) as [H|H]; [destruct (N d H)|exact H]. Qed.

Definition at_cut (n : Z) (s : bytes) : Prop := exists o i rest,
  s = open_layout o ++ 7 :: be16 i ++ rest /\ open_ok o /\ open_refs n o /\ 0 <= i < 2 ^ 16 /\ i = n + open_slots o.
Definition pan (m : Dm value) : Prop := forall d s e, is_bytes s -> d_r d = contr s e -> snd (m d) = Panic -> at_cut (rlen d) s.

Section Pan.
  Variable dec : Dm value.
  Hypothesis HA : acc dec.
  Hypothesis HP : pan dec.
  Notation fields fs := (concat (map (fun p => wire_utf8 (fst p) ++ layout0 (snd p)) fs)).
  Definition in_fields (n : Z) (s : bytes) : Prop := exists fs k o i rest,
    s = fields fs ++ wire_utf8 k ++ open_layout o ++ 7 :: be16 i ++ rest /\ Forall fok fs /\ 0 < len k <= 65535 /\ open_ok o /\
    frefs n fs /\ open_refs (n + fslots fs) o /\ 0 <= i < 2 ^ 16 /\ i = n + fslots fs + open_slots o.
  Lemma obj_loop_panic : forall fuel loc d s e, is_bytes s -> d_r d = contr s e -> snd (obj_loop dec fuel loc d) = Panic -> in_fields (rlen d) s.
  Proof.
    induction fuel as [|f IH]; intros loc d s e HB Hr E; cbn [obj_loop] in E; [discriminate|].
    apply (bind_panic_np _ _ _ np_string0) in E. destruct E as (d1 & key & E1 & E2). destruct (string_inv _ _ _ _ _ HB Hr E1) as (r1 & -> & L & R1 & _).
    apply is_bytes_split in HB. destruct HB as [_ HB1]. apply (kr_ok _ _ _ _ kr_string0) in E1. destruct key as [|c key].
    - exfalso. exact (np_must 9 d1 E2).
    - assert (Hk : 0 < len (c :: key) <= 65535) by (split; [apply len_pos; discriminate|exact L]).
      apply bind_panic in E2. destruct E2 as [E2|(d2 & v & E3 & E4)].
      + destruct (HP _ _ _ HB1 R1 E2) as (o & i & rest & -> & O1 & O2 & O3 & O4). rewrite E1 in *. exists [], (c :: key), o, i, rest.
        cbn [map concat app frefs fold_right]. split; [reflexivity|]. split; [constructor|]. split; [exact Hk|]. split; [exact O1|]. split; [exact I|]. rewrite Z.add_0_r. split; [exact O2|]. split; [exact O3|exact O4].
      + destruct (HA _ _ _ _ _ HB1 R1 E3) as (t & r2 & -> & Ht & R2 & _ & T1 & T2). apply is_bytes_split in HB1. destruct HB1 as [_ HB2].
        apply bind_panic in E4. destruct E4 as [E4|(d3 & u & E5 & E6)]; [discriminate|].
        assert (R3 : d_r d3 = contr r2 e) by (inversion E5; subst; exact R2). assert (T3 : d_ref0 d3 = d_ref0 d2) by (inversion E5; subst; reflexivity).
        destruct (IH _ _ _ _ HB2 R3 E6) as (fs & k & o & i & rest & -> & O1 & O2 & O3 & O4 & O5 & O6 & O7). rewrite T3, T2, E1 in *.
        exists ((c :: key, t) :: fs), k, o, i, rest. cbn [map concat fst snd frefs fold_right]. split; [rewrite <- !app_assoc; reflexivity|].
        split; [constructor; [split; [exact Hk|exact Ht]|exact O1]|]. split; [exact O2|]. split; [exact O3|]. split; [split; assumption|].
        rewrite Z.add_assoc. split; [exact O5|]. split; [exact O6|exact O7].
  Qed.
  Lemma object_panic fuel d s e : is_bytes s -> d_r d = contr s e -> snd (decode_object0 dec fuel d) = Panic -> in_fields (rlen d + 1) s.
  Proof.
    intros HB Hr E. unfold decode_object0 in E. apply bind_panic in E. destruct E as [E|(d1 & l1 & E1 & E2)]; [discriminate|]. apply bind_panic in E2. destruct E2 as [E|(d2 & u & E2 & E3)]; [discriminate|].
    inversion E1; subst. inversion E2; subst. apply bind_panic in E3. destruct E3 as [E3|(d3 & [] & E3 & E4)]; [|discriminate].
    pose proof (obj_loop_panic _ _ (set_ref0 _ (set_heap _ d)) s e HB Hr E3) as G. cbn [set_ref0 set_heap d_ref0] in G. rewrite len_app in G. exact G.
  Qed.
  Lemma loop_panic : forall fuel n d s e, is_bytes s -> d_r d = contr s e -> snd (loop_n dec fuel n d) = Panic ->
    exists l o i rest, s = concat (map layout0 l) ++ open_layout o ++ 7 :: be16 i ++ rest /\ len l < n /\ Forall (doc_ok true) l /\ open_ok o /\
      erefs (rlen d) l /\ open_refs (rlen d + eslots l) o /\ 0 <= i < 2 ^ 16 /\ i = rlen d + eslots l + open_slots o.
  Proof.
    induction fuel as [|f IH]; intros n d s e HB Hr E; cbn [loop_n] in E; (destruct (Z.leb_spec n 0); [discriminate|]); [discriminate|].
    apply bind_panic in E. destruct E as [E|(d1 & v & E1 & E2)].
    - destruct (HP _ _ _ HB Hr E) as (o & i & rest & -> & O1 & O2 & O3 & O4). exists [], o, i, rest. cbn [map concat app erefs fold_right]. rewrite Z.add_0_r.
      split; [reflexivity|]. split; [unfold len; cbn [length]; lia|]. split; [constructor|]. split; [exact O1|]. split; [exact I|]. split; [exact O2|]. split; [exact O3|exact O4].
    - destruct (HA _ _ _ _ _ HB Hr E1) as (t & r1 & -> & Ht & R1 & _ & T1 & T2). apply is_bytes_split in HB. destruct HB as [_ HB].
      apply bind_panic in E2. destruct E2 as [E2|(d2 & l & E2 & E3)]; [|discriminate].
      destruct (IH _ _ _ _ HB R1 E2) as (l & o & i & rest & -> & O1 & O2 & O3 & O4 & O5 & O6 & O7). rewrite T2 in *.
      exists (t :: l), o, i, rest. cbn [map concat erefs fold_right]. rewrite <- !app_assoc, Z.add_assoc, len_cons. split; [reflexivity|]. split; [lia|]. split; [constructor; assumption|]. split; [exact O3|]. split; [split; assumption|]. split; [exact O5|]. split; [exact O6|exact O7].
  Qed.
End Pan.

Ltac npstep N E d2 b E2 E3 := apply (bind_panic_np _ _ _ N) in E; destruct E as (d2 & b & E2 & E3).
Theorem dec0_pan : forall fuel, pan (dec0 fuel).
Proof.
  induction fuel as [|f IH]; intros d s e HB Hr E; cbn [dec0] in E; [discriminate|].
  npstep np_byte E d1 m E1 E0. destruct (read_byte_inv _ _ _ _ _ Hr E1) as (s1 & -> & R1). rename E0 into E.
  assert (HB1 : is_bytes s1) by (inversion HB; assumption). apply (kr_ok _ _ _ _ kr_byte) in E1.
  destruct (Z.eqb_spec m 0) as [->|_]; [npstep (np_read_be 8 ltac:(lia)) E d2 b E2 E3; discriminate|].
  destruct (Z.eqb_spec m 1) as [->|_]; [npstep np_byte E d2 b E2 E3; discriminate|].
  destruct (Z.eqb_spec m 2) as [->|_]; [npstep np_string0 E d2 b E2 E3; discriminate|].
  destruct (Z.eqb_spec m 3) as [->|_].
  { apply bind_panic in E. destruct E as [E|(d2 & b & _ & E)]; [|discriminate].
    destruct (object_panic _ (dec0_acc f) IH _ _ _ _ HB1 R1 E) as (fs & k & o & i & rest & -> & O1 & O2 & O3 & O4 & O5 & O6 & O7). rewrite E1 in *.
    exists (O_object fs k o), i, rest. cbn [open_layout open_ok open_refs open_slots slots app]. rewrite refs_object, <- !app_assoc, Z.add_assoc. repeat (split; [first [reflexivity|assumption|exact (conj O1 (conj O2 O3))|exact (conj O4 O5)]|]). lia. }
  destruct (Z.eqb_spec m 4) as [->|_]; [discriminate|].
  destruct (Z.eqb_spec m 5) as [->|_]; [discriminate|].
  destruct (Z.eqb_spec m 6) as [->|_]; [discriminate|].
  destruct (Z.eqb_spec m 13) as [->|_]; [discriminate|]. cbn [orb] in E.
  destruct (Z.eqb_spec m 7) as [->|_].
  { npstep (np_read_be 2 ltac:(lia)) E d2 b E2 E3. destruct (read_be_inv 2 _ _ _ _ _ ltac:(lia) R1 E2) as (a & rest & -> & L & -> & R2).
    apply is_bytes_split in HB1. destruct (be16_inv a (proj1 HB1) L) as [Ea Ra]. destruct (Z.ltb_spec (len (d_ref0 d2)) (be_val a)); [discriminate|]. destruct (Z.eqb_spec (be_val a) (len (d_ref0 d2))); [|discriminate].
    apply (kr_ok _ _ _ _ (kr_read_be 2)) in E2. rewrite E2, E1 in *. exists O_here, (be_val a), rest. cbn [open_layout open_ok open_refs open_slots app]. rewrite <- Ea. repeat (split; [first [reflexivity|exact I|assumption]|]). lia. }
  destruct (Z.eqb_spec m 8) as [->|_].
  { unfold decode_ecma0 in E. npstep (np_read_be 4 ltac:(lia)) E d2 n E2 E3. destruct (read_be_inv 4 _ _ _ _ _ ltac:(lia) R1 E2) as (a & r2 & -> & L & -> & R2).
    apply is_bytes_split in HB1. destruct HB1 as [HBa HB1]. destruct (be32_inv a HBa L) as [Ea Ra]. apply (kr_ok _ _ _ _ (kr_read_be 4)) in E2. apply bind_panic in E3. destruct E3 as [E3|(d3 & loc & _ & E4)]; [|discriminate].
    destruct (object_panic _ (dec0_acc f) IH _ _ _ _ HB1 R2 E3) as (fs & k & o & i & rest & -> & O1 & O2 & O3 & O4 & O5 & O6 & O7). rewrite E2, E1 in *.
    exists (O_ecma (be_val a) fs k o), i, rest. cbn [open_layout open_ok open_refs open_slots slots app]. rewrite <- Ea, refs_object, <- !app_assoc, Z.add_assoc. repeat (split; [first [reflexivity|assumption|exact (conj Ra (conj O1 (conj O2 O3)))|exact (conj O4 O5)]|]). lia. }
  destruct (Z.eqb_spec m 10) as [->|_].
  { unfold decode_strict0 in E. npstep (np_read_be 4 ltac:(lia)) E d2 n E2 E3. destruct (read_be_inv 4 _ _ _ _ _ ltac:(lia) R1 E2) as (a & r2 & -> & L & -> & R2).
    apply is_bytes_split in HB1. destruct HB1 as [HBa HB1]. destruct (be32_inv a HBa L) as [Ea Ra]. apply (kr_ok _ _ _ _ (kr_read_be 4)) in E2. apply bind_panic in E3. destruct E3 as [E3|(d3 & u & E3 & E4)]; [discriminate|]. inversion E3; subst.
    apply bind_panic in E4. destruct E4 as [E4|(d4 & l & E4 & E5)]; [|discriminate].
    destruct (loop_panic _ (dec0_acc f) IH _ _ (set_ref0 (d_ref0 d2 ++ [VArr []]) d2) r2 e HB1 R2 E4) as (l & o & i & rest & -> & O1 & O2 & O3 & O4 & O5 & O6 & O7).
    cbn [set_ref0 d_ref0] in *. rewrite len_app in *. change (len [VArr []]) with 1 in *. rewrite E2, E1 in *.
    exists (O_strict (be_val a) l o), i, rest. cbn [open_layout open_ok open_refs open_slots slots app]. rewrite <- Ea, refs_strict, <- !app_assoc, Z.add_assoc. repeat (split; [first [reflexivity|assumption|exact (conj (conj O1 (proj2 Ra)) (conj O2 O3))|exact (conj O4 O5)]|]). lia. }
  destruct (Z.eqb_spec m 11) as [->|_]; [unfold decode_date0 in E; npstep (np_read_be 8 ltac:(lia)) E d2 b E2 E3; npstep (np_read_bytes 2) E3 d3 z E4 E5; discriminate|].
  destruct (Z.eqb_spec m 12) as [->|_]; [npstep np_longstring0 E d2 b E2 E3; discriminate|].
  destruct (Z.eqb_spec m 14) as [->|_]; [discriminate|].
  destruct (Z.eqb_spec m 15) as [->|_]; [npstep np_longstring0 E d2 b E2 E3; discriminate|].
  destruct (Z.eqb_spec m 16) as [->|_].
  { unfold decode_typed0 in E. apply bind_panic in E. destruct E as [E|(d2 & u & E2 & E3)]; [discriminate|]. inversion E2; subst.
    npstep np_string0 E3 d3 ty E3 E4. destruct (string_inv (set_ref0 (d_ref0 d1 ++ [VTyped [] None]) d1) s1 e _ _ HB1 R1 E3) as (r2 & -> & L & R2 & _). apply is_bytes_split in HB1. destruct HB1 as [_ HB1].
    apply (kr_ok _ _ _ _ kr_string0) in E3. apply bind_panic in E4. destruct E4 as [E4|(d4 & loc & _ & E4)]; [|discriminate].
    destruct (object_panic _ (dec0_acc f) IH _ _ _ _ HB1 R2 E4) as (fs & k & o & i & rest & -> & O1 & O2 & O3 & O4 & O5 & O6 & O7). rewrite E3 in *. cbn [set_ref0 d_ref0] in *. rewrite len_app in *. change (len [VTyped [] None]) with 1 in *. rewrite E1 in *.
    exists (O_typed ty fs k o), i, rest. cbn [open_layout open_ok open_refs open_slots slots app]. rewrite refs_typed, <- !app_assoc, Z.add_assoc. replace (rlen d + 1 + 1) with (rlen d + 2) in * by lia. repeat (split; [first [reflexivity|assumption|exact (conj L (conj O1 (conj O2 O3)))|exact (conj O4 O5)]|]). lia. }
  destruct (Z.eqb_spec m 17) as [->|_]; [|discriminate].
  exfalso. exact (np_dec3 f d1 E).
Qed.

(** The other way round: a document with references, and one cut before a reference. *)
Definition RTR (t : doc0) : Prop := doc_ok true t -> no_avm t -> forall fuel d rest e, refs_in (rlen d) t -> (length (layout0 t) < fuel)%nat ->
  d_r d = contr (layout0 t ++ rest) e -> doc_end rest e t -> exists d' v, dec0 fuel d = (d', Ok v) /\ d_r d' = contr rest e /\ rlen d' = rlen d + slots t.
Definition fgood (p : bytes * doc0) : Prop := fok p /\ no_avm (snd p).

Lemma fields_prefix fs : Forall (fun p => RTR (snd p)) fs -> Forall fgood fs -> forall fuel k loc d rest e, frefs (rlen d) fs -> rest <> [] ->
  (length (layout_fields fs) < fuel)%nat -> (length fs < k)%nat -> d_r d = contr (layout_fields fs ++ rest) e ->
  exists d', obj_loop (dec0 fuel) k loc d = obj_loop (dec0 fuel) (k - length fs) loc d' /\ d_r d' = contr rest e /\ rlen d' = rlen d + fslots fs.
Proof.
  induction fs as [|[key t] fs IH]; intros HRT Hok fuel k loc d rest e HF Hne Hf Hk Hr.
  - exists d. cbn [length map fold_right]. rewrite Nat.sub_0_r, Z.add_0_r. split; [reflexivity|]. split; [exact Hr|reflexivity].
  - inversion HRT as [|? ? HRt HRl]; inversion Hok as [|? ? [[Hkl Hot] Hno] Hol]; subst. cbn [fst snd] in *. destruct HF as [HF1 HF2].
    destruct k as [|k]; [cbn [length] in Hk; lia|].
    unfold layout_fields in Hf, Hr. cbn [map concat fst snd] in Hf, Hr. fold (layout_fields fs) in Hf, Hr. rewrite <- !app_assoc in Hr. rewrite !app_length in Hf.
    assert (Hkne : key <> []) by (intros ->; unfold len in Hkl; cbn [length] in Hkl; lia).
    set (d0 := set_r (contr (layout0 t ++ layout_fields fs ++ rest) e) d).
    assert (Es : decode_string0 d = (d0, Ok key)) by (unfold d0; apply decode_string0_contr; [exact Hr|lia|left; exact Hkne]).
    destruct (HRt Hot Hno fuel d0 (layout_fields fs ++ rest) e HF1 ltac:(lia) eq_refl) as (d1 & v & E1 & R1 & T1).
    { left. intros X. apply app_eq_nil in X. destruct X as [_ X]. apply Hne, X. }
    destruct (IH HRl Hol fuel k loc (set_heap (upd_nth loc (map_set key v) (d_heap d1)) d1) rest e) as (d2 & E2 & R2 & T2); [|exact Hne|lia|cbn [length] in Hk; lia|exact R1|].
    { change (frefs (rlen d1) fs). rewrite T1. exact HF2. }
    exists d2. cbn [length Nat.sub]. split; [|split; [exact R2|]].
    + cbn [obj_loop]. erewrite dbind_ok by exact Es. destruct key as [|c key]; [congruence|]. erewrite dbind_ok by exact E1. erewrite dbind_ok by reflexivity. exact E2.
    + rewrite T2. change (rlen d1 + fslots fs = rlen d + (slots t + fslots fs)). rewrite T1. change (rlen d0) with (rlen d). lia.
Qed.

Lemma elems_prefix l : Forall RTR l -> Forall (fun t => doc_ok true t /\ no_avm t) l -> forall fuel k n d rest e, erefs (rlen d) l -> doc_end rest e (A_strict l) ->
  (length (concat (map layout0 l)) < fuel)%nat -> (length l <= k)%nat -> len l <= n -> d_r d = contr (concat (map layout0 l) ++ rest) e ->
  exists d' vs, d_r d' = contr rest e /\ rlen d' = rlen d + eslots l /\
    loop_n (dec0 fuel) k n d = match loop_n (dec0 fuel) (k - length l) (n - len l) d' with (d2, Ok ws) => (d2, Ok (vs ++ ws)) | x => x end.
Proof.
  induction l as [|t l IH]; intros HRT Hok fuel k n d rest e HF Hs Hf Hk Hn Hr.
  - exists d, []. cbn [length map fold_right]. rewrite Nat.sub_0_r, Z.add_0_r. change (len (@nil doc0)) with 0. rewrite Z.sub_0_r. split; [exact Hr|]. split; [reflexivity|].
    destruct (loop_n (dec0 fuel) k n d) as [d2 [ws|x| |]]; reflexivity.
  - inversion HRT as [|? ? HRt HRl]; inversion Hok as [|? ? [Hot Hno] Hol]; subst. destruct HF as [HF1 HF2]. rewrite len_cons in *. pose proof (len_nonneg l) as Hln.
    destruct k as [|k]; [cbn [length] in Hk; lia|]. cbn [map concat] in Hf, Hr. rewrite app_length in Hf. rewrite <- app_assoc in Hr.
    destruct (HRt Hot Hno fuel d (concat (map layout0 l) ++ rest) e HF1 ltac:(lia) Hr) as (d1 & v & E1 & R1 & T1).
    { destruct Hs as [Hs|[Hs|Hs]]; [left; intros X; apply app_eq_nil in X; tauto|right; left; exact Hs|]. destruct l as [|t2 l]; [right; right; exact Hs|].
      left. intros X. apply app_eq_nil in X. destruct X as [X _]. cbn [map concat] in X. apply app_eq_nil in X. destruct X as [X _]. pose proof (layout0_nonempty t2) as Hx. rewrite X in Hx. cbn in Hx. lia. }
    destruct (IH HRl Hol fuel k (n - 1) d1 rest e) as (d2 & vs & R2 & T2 & E2); [rewrite T1; exact HF2| |lia|cbn [length] in Hk; lia|lia|exact R1|].
    { destruct Hs as [Hs|[Hs|Hs]]; [left; exact Hs|right; left; exact Hs|]. destruct l as [|t2 l]; [right; right; reflexivity|].
      right; right. destruct (exists_last (l := t2 :: l) ltac:(discriminate)) as (l' & x & El). rewrite El in *. rewrite doc_ends_last. change (t :: l' ++ [x]) with ((t :: l') ++ [x]) in Hs. rewrite doc_ends_last in Hs. exact Hs. }
    exists d2, (v :: vs). split; [exact R2|]. split; [rewrite T2, T1; cbn [map fold_right]; lia|].
    cbn [loop_n length Nat.sub]. destruct (Z.leb_spec n 0); [lia|]. erewrite dbind_ok by exact E1. unfold dbind. rewrite E2. replace (n - (1 + len l)) with (n - 1 - len l) by lia.
    destruct (loop_n (dec0 fuel) (k - length l) (n - 1 - len l) d2) as [d3 [ws|x| |]]; reflexivity.
Qed.

Lemma fgood_of fs : all_of (map (fun p => 0 < len (fst p) <= 65535 /\ doc_ok true (snd p)) fs) -> all_of (map (fun p => no_avm (snd p)) fs) -> Forall fgood fs.
Proof. intros H1 H2. apply all_of_map in H1. apply all_of_map in H2. rewrite Forall_forall in *. intros p Hp. split; [apply (H1 p Hp)|apply (H2 p Hp)]. Qed.
Lemma obj_loop_end dec k loc d rest e : (0 < k)%nat -> d_r d = contr ([0; 0; 9] ++ rest) e -> obj_loop dec k loc d = (set_r (contr rest e) d, Ok tt).
Proof.
  intros Hk Hr. destruct k as [|k]; [lia|]. cbn [obj_loop]. change ([0; 0; 9] ++ rest) with (wire_utf8 [] ++ [9] ++ rest) in Hr.
  erewrite dbind_ok by (eapply decode_string0_contr; [exact Hr|rewrite len_nil; lia|right; left; discriminate]).
  cbn iota. unfold next_byte_must_be. erewrite dbind_ok by (eapply read_byte_contr; reflexivity). reflexivity.
Qed.
Lemma object_refs fs : Forall (fun p => RTR (snd p)) fs -> Forall fgood fs -> forall fuel k d rest e, frefs (rlen d + 1) fs ->
  (length (layout_fields fs) < fuel)%nat -> (length fs < k)%nat -> d_r d = contr (layout_fields fs ++ [0; 0; 9] ++ rest) e ->
  exists d' loc, decode_object0 (dec0 fuel) k d = (d', Ok loc) /\ d_r d' = contr rest e /\ rlen d' = rlen d + (1 + fslots fs).
Proof.
  intros HRT Hok fuel k d rest e HF Hf Hk Hr. unfold decode_object0. erewrite dbind_ok by reflexivity. erewrite dbind_ok by reflexivity. set (d1 := set_ref0 _ _).
  assert (L1 : rlen d1 = rlen d + 1) by (unfold d1; cbn [set_ref0 set_heap d_ref0]; rewrite len_app; reflexivity).
  destruct (fields_prefix fs HRT Hok fuel k (length (d_heap d)) d1 ([0; 0; 9] ++ rest) e) as (d2 & E & R & T); [rewrite L1; exact HF|discriminate|exact Hf|exact Hk|exact Hr|].
  exists (set_r (contr rest e) d2), (length (d_heap d)). split; [|split; [reflexivity|cbn [set_r d_ref0]; rewrite T, L1; lia]].
  erewrite dbind_ok; [reflexivity|]. rewrite E. apply obj_loop_end; [lia|exact R].
Qed.

Ltac fin := split; [reflexivity|]; split; [reflexivity|]; cbn [set_r set_ref0 d_ref0 slots]; lia.
Theorem dec0_refs t : RTR t.
Proof.
  induction t as [b|b|s|fs IH| | |i|s|n fs IH|l IH|b z|s| |s|ty fs IH] using doc0_ind';
    intros Hok Hno [|fuel] d rest e HF Hf Hr Hs; try (exfalso; lia); cbn [doc_ok no_avm layout0] in *;
    change (2 ^ 64) with 18446744073709551616 in *; change (2 ^ 32) with 4294967296 in *; change (2 ^ 16) with 65536 in *.
  - do 2 eexists. split; [apply dec0_number; [exact Hok|exact Hr]|]. split; [reflexivity|]. cbn [set_r d_ref0 slots]. lia.
  - do 2 eexists. split; [step0 Hr; erewrite dbind_ok by (eapply read_byte_contr; reflexivity); reflexivity|]. split; [reflexivity|]. cbn [set_r d_ref0 slots]. lia.
  - assert (Hs' : s <> [] \/ rest <> [] \/ e_zero e = false).
    { destruct s; [|left; discriminate]. destruct Hs as [H|[H|H]]; [tauto|tauto|cbn in H; discriminate]. }
    do 2 eexists. split; [step0 Hr; erewrite dbind_ok by (eapply decode_string0_contr; [reflexivity|lia|exact Hs']); reflexivity|]. split; [reflexivity|]. cbn [set_r d_ref0 slots]. lia.
  - pose proof (fgood_of fs Hok Hno) as Hg. cbn [length app] in Hf, Hr. rewrite app_length in Hf. fold (layout_fields fs) in Hf, Hr.
    rewrite <- app_assoc in Hr. cbn [length] in Hf. pose proof (layout_fields_length fs) as Hwl.
    destruct (object_refs fs IH Hg fuel fuel (set_r (contr (layout_fields fs ++ [0; 0; 9] ++ rest) e) d) rest e) as (d' & loc & E & R & T); [exact HF|lia|lia|reflexivity|].
    exists d', (VObj loc). split; [|split; [exact R|exact T]]. step0 Hr. erewrite dbind_ok by exact E. reflexivity.
  - do 2 eexists. split; [step0 Hr; reflexivity|]. split; [reflexivity|]. cbn [set_r d_ref0 slots]. lia.
  - do 2 eexists. split; [step0 Hr; reflexivity|]. split; [reflexivity|]. cbn [set_r d_ref0 slots]. lia.
  - destruct Hok as [_ Hi]. cbn [refs_in] in HF. cbn [app] in Hr. do 2 eexists. split.
    + step0 Hr. unfold decode_reference0. erewrite dbind_ok by (change 2 with (len (be16 i)); eapply read_be_contr; [reflexivity|reflexivity]). rewrite be_val_be16, Z.mod_small by lia. cbn [d_ref0 set_r].
      destruct (Z.ltb_spec (rlen d) i); [lia|]. destruct (Z.eqb_spec i (rlen d)); [lia|]. reflexivity.
    + split; [reflexivity|]. cbn [set_r d_ref0 slots]. lia.
  - destruct Hno.
  - destruct Hok as [Hn Hok]. pose proof (fgood_of fs Hok Hno) as Hg. cbn [length app] in Hf, Hr. rewrite !app_length in Hf. fold (layout_fields fs) in Hf, Hr.
    rewrite <- !app_assoc in Hr. cbn [length be32] in Hf. pose proof (layout_fields_length fs) as Hwl.
    destruct (object_refs fs IH Hg fuel fuel (set_r (contr (layout_fields fs ++ [0; 0; 9] ++ rest) e) d) rest e) as (d' & loc & E & R & T); [exact HF|lia|lia|reflexivity|].
    exists d', (VObj loc). split; [|split; [exact R|exact T]]. step0 Hr. unfold decode_ecma0.
    erewrite dbind_ok by (change 4 with (len (be32 n)); eapply read_be_contr; [reflexivity|reflexivity]).
    rewrite ?set_r_set_r. erewrite dbind_ok by exact E. reflexivity.
  - destruct Hok as [Hlen Hall]. apply all_of_map in Hall. apply all_of_map in Hno.
    assert (Hg : Forall (fun t => doc_ok true t /\ no_avm t) l) by (rewrite Forall_forall in *; intros x Hx; split; [apply Hall, Hx|apply Hno, Hx]).
    cbn [length app] in Hf, Hr. rewrite app_length in Hf. cbn [be32 length] in Hf. rewrite <- app_assoc in Hr.
    set (d1 := set_ref0 (d_ref0 d ++ [VArr []]) (set_r (contr (concat (map layout0 l) ++ rest) e) d)).
    assert (L1 : rlen d1 = rlen d + 1) by (unfold d1; cbn [set_ref0 d_ref0]; rewrite len_app; reflexivity). pose proof (concat_layout_length l) as Hcl.
    destruct (elems_prefix l IH Hg fuel fuel (len l) d1 rest e) as (d' & vs & R & T & E); [rewrite L1; exact HF|exact Hs|lia|lia|lia|reflexivity|].
    exists d', (VArr (vs ++ [])). split; [|split; [exact R|rewrite T, L1; cbn [slots]; lia]]. step0 Hr. unfold decode_strict0.
    erewrite dbind_ok by (change 4 with (len (be32 (len l))); eapply read_be_contr; [reflexivity|reflexivity]).
    rewrite be_val_be32, Z.mod_small by (pose proof (len_nonneg l); lia).
    assert (E' : loop_n (dec0 fuel) fuel (len l) d1 = (d', Ok (vs ++ []))) by (rewrite E, Z.sub_diag; destruct (fuel - length l)%nat; reflexivity).
    erewrite dbind_ok by reflexivity. erewrite dbind_ok by exact E'. reflexivity.
  - destruct Hok as [Hb Hz]. cbn [app] in Hr. rewrite <- app_assoc in Hr. do 2 eexists. split.
    + step0 Hr. unfold decode_date0.
      erewrite dbind_ok by (change 8 with (len (be64 b)); eapply read_be_contr; [reflexivity|reflexivity]).
      erewrite dbind_ok by (change 2 with (len (be16 z)); eapply read_bytes_contr; [reflexivity|reflexivity]). reflexivity.
    + split; [reflexivity|]. cbn [set_r d_ref0 slots]. lia.
  - assert (Hs' : s <> [] \/ rest <> [] \/ e_zero e = false).
    { destruct s; [|left; discriminate]. destruct Hs as [H|[H|H]]; [tauto|tauto|cbn in H; discriminate]. }
    do 2 eexists. split; [step0 Hr; erewrite dbind_ok by (eapply decode_longstring0_contr; [reflexivity|lia|exact Hs']); reflexivity|]. split; [reflexivity|]. cbn [set_r d_ref0 slots]. lia.
  - do 2 eexists. split; [step0 Hr; reflexivity|]. split; [reflexivity|]. cbn [set_r d_ref0 slots]. lia.
  - assert (Hs' : s <> [] \/ rest <> [] \/ e_zero e = false).
    { destruct s; [|left; discriminate]. destruct Hs as [H|[H|H]]; [tauto|tauto|cbn in H; discriminate]. }
    do 2 eexists. split; [step0 Hr; erewrite dbind_ok by (eapply decode_longstring0_contr; [reflexivity|lia|exact Hs']); reflexivity|]. split; [reflexivity|]. cbn [set_r d_ref0 slots]. lia.
  - destruct Hok as (Htl & Hok). pose proof (fgood_of fs Hok Hno) as Hg.
    cbn [length app] in Hf, Hr. rewrite !app_length in Hf. fold (layout_fields fs) in Hf, Hr.
    rewrite <- !app_assoc in Hr. cbn [length] in Hf. pose proof (layout_fields_length fs) as Hwl.
    set (d1 := set_r (contr (layout_fields fs ++ [0; 0; 9] ++ rest) e)
                 (set_ref0 (d_ref0 d ++ [VTyped [] None])
                    (set_r (contr (wire_utf8 ty ++ layout_fields fs ++ [0; 0; 9] ++ rest) e) d))).
    assert (L1 : rlen d1 = rlen d + 1) by (unfold d1; cbn [set_r set_ref0 d_ref0]; rewrite len_app; reflexivity).
    destruct (object_refs fs IH Hg fuel fuel d1 rest e) as (d' & loc & E & R & T); [rewrite L1; rewrite refs_typed in HF; replace (rlen d + 1 + 1) with (rlen d + 2) by lia; exact HF|lia|lia|reflexivity|].
    exists d', (VTyped ty (Some loc)). split; [|split; [exact R|rewrite T, L1; cbn [slots]; lia]].
    step0 Hr. unfold decode_typed0. erewrite dbind_ok by reflexivity.
    erewrite dbind_ok by (eapply decode_string0_contr; [reflexivity|exact Htl|right; left; intros X; apply app_eq_nil in X; destruct X; discriminate]).
    erewrite dbind_ok by exact E. reflexivity.
Qed.

Lemma RTR_fields fs : Forall (fun p : bytes * doc0 => RTR (snd p)) fs. Proof. apply Forall_forall. intros p _. apply dec0_refs. Qed.
Lemma RTR_all l : Forall RTR l. Proof. apply Forall_forall. intros p _. apply dec0_refs. Qed.

(** Cut before a reference to the next free place: Decode panics. *)
Lemma snd_dbind {A B} (m : Dm A) (k : A -> Dm B) d : snd (m d) = Panic -> snd (dbind m k d) = Panic.
Proof. unfold dbind. destruct (m d) as [d1 [a|x| |]]; cbn [snd]; intros E; try discriminate. reflexivity. Qed.
Section Cut.
  Variable o : open0.
  Variables (i : Z) (rest : bytes).
  Notation tail := (open_layout o ++ 7 :: be16 i ++ rest).
  Hypothesis HO : forall fuel d e, open_refs (rlen d) o -> (length (open_layout o) + 1 < fuel)%nat -> i = rlen d + open_slots o -> d_r d = contr tail e -> snd (dec0 fuel d) = Panic.
  Lemma object_cut fs k : Forall fgood fs -> 0 < len k <= 65535 -> forall fuel n d e, frefs (rlen d + 1) fs -> open_refs (rlen d + 1 + fslots fs) o ->
    (length (layout_fields fs) + length (open_layout o) + 1 < fuel)%nat -> (length fs < n)%nat -> i = rlen d + 1 + fslots fs + open_slots o ->
    d_r d = contr (layout_fields fs ++ wire_utf8 k ++ tail) e -> snd (decode_object0 (dec0 fuel) n d) = Panic.
  Proof.
    intros Hg Hk fuel n d e HF HR Hf Hn Hi Hr. unfold decode_object0. erewrite dbind_ok by reflexivity. erewrite dbind_ok by reflexivity. set (d1 := set_ref0 _ _).
    assert (L1 : rlen d1 = rlen d + 1) by (unfold d1; cbn [set_ref0 set_heap d_ref0]; rewrite len_app; reflexivity). apply snd_dbind.
    destruct (fields_prefix fs (RTR_fields fs) Hg fuel n (length (d_heap d)) d1 (wire_utf8 k ++ tail) e) as (d2 & E & R & T); [rewrite L1; exact HF|discriminate|lia|exact Hn|exact Hr|].
    rewrite E. destruct (n - length fs)%nat as [|n2] eqn:E2; [lia|]. cbn [obj_loop].
    assert (Hkne : k <> []) by (intros ->; unfold len in Hk; cbn [length] in Hk; lia).
    erewrite dbind_ok by (apply decode_string0_contr; [exact R|lia|left; exact Hkne]). destruct k as [|c k]; [congruence|]. apply snd_dbind.
    apply (HO fuel _ e); cbn [set_r d_ref0 d_r]; [rewrite T, L1; exact HR|lia|rewrite T, L1; lia|reflexivity].
  Qed.
End Cut.
Theorem dec0_cut : forall o i rest, 0 <= i < 2 ^ 16 -> open_ok o -> open_no_avm o -> forall fuel d e, open_refs (rlen d) o -> (length (open_layout o) + 1 < fuel)%nat ->
  i = rlen d + open_slots o -> d_r d = contr (open_layout o ++ 7 :: be16 i ++ rest) e -> snd (dec0 fuel d) = Panic.
Proof.
  intros o i rest Hi. change (2 ^ 16) with 65536 in Hi. induction o as [|fs k o IH|n fs k o IH|n l o IH|ty fs k o IH]; intros Hok Hno [|fuel] d e HR Hf Ei Hr; try (exfalso; lia); cbn [open_layout open_ok open_no_avm open_refs open_slots slots app] in *.
  - step0 Hr. unfold decode_reference0. erewrite dbind_ok by (change 2 with (len (be16 i)); eapply read_be_contr; [reflexivity|reflexivity]). rewrite be_val_be16, Z.mod_small by lia. cbn [d_ref0 set_r].
    destruct (Z.ltb_spec (rlen d) i); [lia|]. destruct (Z.eqb_spec i (rlen d)); [reflexivity|lia].
  - destruct Hok as (H1 & H2 & H3). destruct Hno as [N1 N2]. destruct HR as [F1 F2]. specialize (IH H3 N2).
    assert (Hg : Forall fgood fs) by (rewrite Forall_forall in *; intros p Hp; split; [apply (H1 p Hp)|apply (N1 p Hp)]).
    fold (layout_fields fs) in Hf, Hr. cbn [length] in Hf. rewrite !app_length in Hf. rewrite <- !app_assoc in Hr. pose proof (layout_fields_length fs) as Hwl.
    step0 Hr. apply snd_dbind. apply (object_cut o i rest IH fs k Hg H2 _ _ _ e); cbn [set_r d_ref0 d_r]; [exact F1|rewrite <- Z.add_assoc; exact F2|lia|lia|lia|reflexivity].
  - destruct Hok as (Hn & H1 & H2 & H3). destruct Hno as [N1 N2]. destruct HR as [F1 F2]. specialize (IH H3 N2).
    assert (Hg : Forall fgood fs) by (rewrite Forall_forall in *; intros p Hp; split; [apply (H1 p Hp)|apply (N1 p Hp)]).
    fold (layout_fields fs) in Hf, Hr. cbn [length be32] in Hf. rewrite !app_length in Hf. rewrite <- !app_assoc in Hr. pose proof (layout_fields_length fs) as Hwl.
    step0 Hr. unfold decode_ecma0. erewrite dbind_ok by (change 4 with (len (be32 n)); eapply read_be_contr; [reflexivity|reflexivity]).
    apply snd_dbind. apply (object_cut o i rest IH fs k Hg H2 _ _ _ e); cbn [set_r d_ref0 d_r]; [exact F1|rewrite <- Z.add_assoc; exact F2|lia|lia|lia|reflexivity].
  - destruct Hok as (Hn & H1 & H3). destruct Hno as [N1 N2]. destruct HR as [F1 F2]. specialize (IH H3 N2). change (2 ^ 32) with 4294967296 in Hn. pose proof (len_nonneg l) as Hl0.
    assert (Hg : Forall (fun t => doc_ok true t /\ no_avm t) l) by (rewrite Forall_forall in *; intros p Hp; split; [apply (H1 p Hp)|apply (N1 p Hp)]).
    cbn [length be32] in Hf. rewrite !app_length in Hf. rewrite <- !app_assoc in Hr. pose proof (concat_layout_length l) as Hcl. cbn [length] in Hf.
    step0 Hr. unfold decode_strict0. erewrite dbind_ok by (change 4 with (len (be32 n)); eapply read_be_contr; [reflexivity|reflexivity]).
    rewrite be_val_be32, Z.mod_small by lia. erewrite dbind_ok by reflexivity. apply snd_dbind. set (d1 := set_ref0 _ _).
    assert (L1 : rlen d1 = rlen d + 1) by (unfold d1; cbn [set_r set_ref0 d_ref0]; rewrite len_app; reflexivity).
    destruct (elems_prefix l (RTR_all l) Hg fuel fuel n d1 (open_layout o ++ 7 :: be16 i ++ rest) e) as (d' & vs & R & T & E); [rewrite L1; exact F1|left; intros X; apply app_eq_nil in X; destruct X; discriminate|lia|lia|lia|reflexivity|].
    rewrite E. assert (EP : snd (loop_n (dec0 fuel) (fuel - length l) (n - len l) d') = Panic).
    { destruct (fuel - length l)%nat as [|f2] eqn:E2; [lia|]. cbn [loop_n]. destruct (Z.leb_spec (n - len l) 0); [lia|]. apply snd_dbind. apply (IH _ _ e); [rewrite T, L1, <- Z.add_assoc; exact F2|lia|rewrite T, L1; lia|exact R]. }
    destruct (loop_n (dec0 fuel) (fuel - length l) (n - len l) d') as [d2 [ws|x| |]]; cbn [snd] in *; try discriminate. reflexivity.
  - destruct Hok as (Ht & H1 & H2 & H3). destruct Hno as [N1 N2]. destruct HR as [F1 F2]. specialize (IH H3 N2).
    assert (Hg : Forall fgood fs) by (rewrite Forall_forall in *; intros p Hp; split; [apply (H1 p Hp)|apply (N1 p Hp)]).
    fold (layout_fields fs) in Hf, Hr. cbn [length] in Hf. rewrite !app_length in Hf. rewrite <- !app_assoc in Hr. pose proof (layout_fields_length fs) as Hwl.
    step0 Hr. unfold decode_typed0. erewrite dbind_ok by reflexivity.
    erewrite dbind_ok by (eapply decode_string0_contr; [reflexivity|exact Ht|right; left; intros X; apply app_eq_nil in X; destruct X as [_ X]; apply app_eq_nil in X; destruct X; discriminate]).
    apply snd_dbind. set (d1 := set_r _ _). assert (L1 : rlen d1 = rlen d + 1) by (unfold d1; cbn [set_r set_ref0 d_ref0]; rewrite len_app; reflexivity).
    rewrite refs_typed in F1. replace (rlen d + 2) with (rlen d + 1 + 1) in F1 by lia. replace (rlen d + (2 + fslots fs)) with (rlen d + 1 + 1 + fslots fs) in F2 by lia.
    apply (object_cut o i rest IH fs k Hg H2 _ _ _ e); rewrite ?L1; [exact F1|exact F2|lia|lia|lia|reflexivity].
Qed.

(** Without the byte 17 there is no AMF3 value. *)
Lemma fields_in fs p x : In p fs -> In x (layout0 (snd p)) -> In x (concat (map (fun p : bytes * doc0 => wire_utf8 (fst p) ++ layout0 (snd p)) fs)).
Proof. intros H1 H2. apply in_concat. exists (wire_utf8 (fst p) ++ layout0 (snd p)). split; [apply (in_map (fun p : bytes * doc0 => wire_utf8 (fst p) ++ layout0 (snd p))), H1|apply in_app_iff; right; exact H2]. Qed.
Lemma elems_in l (t : doc0) x : In t l -> In x (layout0 t) -> In x (concat (map layout0 l)).
Proof. intros H1 H2. apply in_concat. exists (layout0 t). split; [apply in_map, H1|exact H2]. Qed.
Lemma layout_no_17 t : ~ In 17 (layout0 t) -> no_avm t.
Proof.
  assert (F : forall fs pre post, Forall (fun p => ~ In 17 (layout0 (snd p)) -> no_avm (snd p)) fs ->
    ~ In 17 (pre ++ concat (map (fun p : bytes * doc0 => wire_utf8 (fst p) ++ layout0 (snd p)) fs) ++ post) -> all_of (map (fun p => no_avm (snd p)) fs)).
  { intros fs pre post IH H. apply all_of_map, Forall_forall. intros p Hp. rewrite Forall_forall in IH. apply (IH p Hp). intros X. apply H. rewrite !in_app_iff. right; left. exact (fields_in fs p 17 Hp X). }
  induction t as [b|b|s|fs IH| | |i|s|n fs IH|l IH|b z|s| |s|ty fs IH] using doc0_ind'; intros H; cbn [no_avm layout0] in *; try exact I.
  - apply (F fs [3] [0; 0; 9] IH H).
  - apply H. left. reflexivity.
  - apply (F fs (8 :: be32 n) [0; 0; 9] IH). rewrite <- app_comm_cons. exact H.
  - apply all_of_map, Forall_forall. intros x Hx. rewrite Forall_forall in IH. apply (IH x Hx). intros X. apply H. right. apply in_app_iff. right. exact (elems_in l x 17 Hx X).
  - apply (F fs (16 :: wire_utf8 ty) [0; 0; 9] IH). rewrite <- app_comm_cons. exact H.
Qed.
Lemma open_no_17 o : ~ In 17 (open_layout o) -> open_no_avm o.
Proof.
  assert (F : forall fs s, (forall x, In x (concat (map (fun p : bytes * doc0 => wire_utf8 (fst p) ++ layout0 (snd p)) fs)) -> In x s) -> ~ In 17 s -> Forall (fun p => no_avm (snd p)) fs).
  { intros fs s Hs H. apply Forall_forall. intros p Hp. apply layout_no_17. intros X. apply H, Hs. exact (fields_in fs p 17 Hp X). }
  induction o as [|fs k o IH|n fs k o IH|n l o IH|ty fs k o IH]; intros H; cbn [open_no_avm open_layout] in *; [exact I|..].
  - split; [eapply F; [|exact H]; intros x Hx; right; apply in_app_iff; left; exact Hx|]. apply IH. intros X. apply H. right. rewrite !in_app_iff. tauto.
  - split; [eapply F; [|exact H]; intros x Hx; right; rewrite !in_app_iff; right; left; exact Hx|]. apply IH. intros X. apply H. right. rewrite !in_app_iff. tauto.
  - split; [|apply IH; intros X; apply H; right; rewrite !in_app_iff; tauto]. apply Forall_forall. intros t Ht. apply layout_no_17. intros X. apply H. right. rewrite !in_app_iff. right; left. exact (elems_in l t 17 Ht X).
  - split; [eapply F; [|exact H]; intros x Hx; right; rewrite !in_app_iff; right; left; exact Hx|]. apply IH. intros X. apply H. right. rewrite !in_app_iff. tauto.
Qed.
