(** AMF0 Decode on every input, AMF3 values included. *)
From Verif Require Import Base.Go Base.GoFacts Base.IO Base.Float64 Proofs.IOFacts Model.AmfTypes Model.Amf3 Model.Amf0 Spec.Amf Spec.AmfDoc Spec.Amf3Doc Spec.Amf3Ref Spec.AmfAll
  Proofs.AmfFacts Proofs.AmfContr Proofs.AmfKeep Proofs.AmfNoPanic Proofs.Amf0RT Proofs.Amf0Doc Proofs.Amf0Acc Proofs.Amf0Panic Proofs.Amf3Doc Proofs.Amf3Ref Proofs.Amf3RefAcc.
Local Ltac Zify.zify_post_hook ::= Z.div_mod_to_equations.

(** * The AMF3 tables *)
Definition T3 (d : dstate) := (d_str3 d, d_trait3 d, d_obj3 d).
Lemma relw_T3 W d d' : T3 d' = T3 d -> relw W d -> relw W d'.
Proof. unfold T3. intros E. injection E as E1 E2 E3. unfold relw, rel. rewrite E1, E2, E3. auto. Qed.
Definition k3 {A} (m : Dm A) : Prop := forall d, T3 (fst (m d)) = T3 d.
Lemma k3_ok {A} (m : Dm A) d d' a : k3 m -> m d = (d', Ok a) -> T3 d' = T3 d. Proof. intros H E. specialize (H d). rewrite E in H. exact H. Qed.
Lemma k3_bind {A B} (m : Dm A) (k : A -> Dm B) : k3 m -> (forall a, k3 (k a)) -> k3 (dbind m k).
Proof. intros H K d. unfold dbind. specialize (H d). destruct (m d) as [d1 [a|x| |]]; cbn [fst] in *; try exact H. rewrite K. exact H. Qed.
Lemma k3_read_bytes n : k3 (read_bytes n). Proof. intros d. unfold read_bytes. destruct (read n (d_r d)) as [r [x|x| |]]; reflexivity. Qed.
Lemma k3_read_be n : k3 (read_be n). Proof. intros d. unfold read_be. destruct (read_full n (d_r d)) as [r [x|x| |]]; reflexivity. Qed.
Lemma k3_byte : k3 read_byte. Proof. unfold read_byte. apply k3_bind; [apply k3_read_bytes|intros; intros d; reflexivity]. Qed.
Lemma k3_string0 : k3 decode_string0. Proof. unfold decode_string0. apply k3_bind; [apply k3_read_be|intros; apply k3_read_bytes]. Qed.
Lemma k3_longstring0 : k3 decode_longstring0. Proof. unfold decode_longstring0. apply k3_bind; [apply k3_read_be|intros; apply k3_read_bytes]. Qed.
Ltac k3s := first [apply k3_byte|apply k3_string0|apply k3_longstring0|apply k3_read_be|apply k3_read_bytes].
(** HW : relw W d becomes relw W d' along E : m d = (d', Ok _). *)
Ltac carry HW E := match type of E with ?m ?d = (?d', Ok _) => let K := fresh in assert (K : T3 d' = T3 d) by (eapply (k3_ok m); [k3s|exact E]); apply (relw_T3 _ _ _ K) in HW; clear K end.

(** * Missing bytes *)
Lemma chain_lengths (rs : list (world -> nat -> world -> Prop)) : forall bs, Forall2 (fun (r : world -> nat -> world -> Prop) (b : bytes) => forall W c W', r W c W' -> (c < length b)%nat) rs bs ->
  forall W c W', chain rs W c W' -> (length rs + c <= length (concat bs))%nat.
Proof.
  intros bs H. induction H as [|r b rs bs Hr _ IH]; intros W c W' C; cbn [chain concat length] in *; [lia|]. destruct C as (c1 & W1 & c2 & C1 & C2 & -> & _). specialize (Hr _ _ _ C1). specialize (IH _ _ _ C2). rewrite app_length. lia.
Qed.
Lemma embedded_lengths t : forall W c W', embedded t W c W' -> (c < length (layout0 t))%nat.
Proof.
  induction t as [b|b|s|fs IH| | |i|s|n fs IH|l IH|b z|s| |s|ty fs IH] using doc0_ind'; intros W c W' H; cbn [embedded layout0 length] in *; try (destruct H as [-> _]; lia).
  - destruct H as (p & H). apply (proj1 (cut_lengths Library)) in H. lia.
  - apply (chain_lengths _ (map layout0 l)) in H; [rewrite app_length; lia|]. clear H. induction IH as [|t l Ht _ IH]; constructor; assumption.
Qed.
Lemma none_left (c : nat) t W W' rest : embedded t W c W' -> [] ++ repeat 0 c = layout0 t ++ rest -> False.
Proof. intros H E. apply embedded_lengths in H. apply (f_equal (@length Z)) in E. rewrite !app_length, repeat_length in E. cbn [length] in E. lia. Qed.
Lemma chain_app rs1 : forall rs2 W W1 c W', chain rs1 W 0 W1 -> chain rs2 W1 c W' -> rs2 <> [] \/ c = 0%nat -> chain (rs1 ++ rs2) W c W'.
Proof.
  induction rs1 as [|r rs1 IH]; intros rs2 W W1 c W' H1 H2 K; cbn [chain app] in *; [destruct H1 as [_ ->]; exact H2|].
  destruct H1 as (c1 & W2 & c2 & A & B & E & K1). assert (c1 = 0%nat /\ c2 = 0%nat) as [-> ->] by lia. exists 0%nat, W2, c. split; [exact A|]. split; [apply (IH _ _ W1); assumption|]. split; [reflexivity|left; reflexivity].
Qed.

(** * What is accepted is a document *)
Definition accw (m : Dm value) : Prop := forall d s e d' v W, is_bytes s -> d_r d = contr s e -> relw W d -> m d = (d', Ok v) ->
  exists t c W' rest, s ++ repeat 0 c = layout0 t ++ rest /\ (c = 0%nat \/ rest = []) /\ doc_ok true t /\ d_r d' = contr rest e /\ end_ok t rest e /\ refs_in (rlen d) t /\ rlen d' = rlen d + slots t /\
    embedded t W c W' /\ relw W' d'.
Notation femb fs := (map (fun p : bytes * doc0 => embedded (snd p)) fs).

Section Acc.
  Variable dec : Dm value.
  Hypothesis HD : accw dec.
  Notation fields fs := (concat (map (fun p => wire_utf8 (fst p) ++ layout0 (snd p)) fs)).
  Lemma obj_loop_invw : forall fuel loc d s e d' W, is_bytes s -> d_r d = contr s e -> relw W d -> obj_loop dec fuel loc d = (d', Ok tt) ->
    exists fs rest W', s = fields fs ++ [0; 0; 9] ++ rest /\ Forall fok fs /\ d_r d' = contr rest e /\ frefs (rlen d) fs /\ rlen d' = rlen d + fslots fs /\ chain (femb fs) W 0 W' /\ relw W' d'.
  Proof.
    induction fuel as [|f IH]; intros loc d s e d' W HB Hr HW E; cbn [obj_loop] in E; [discriminate|].
    apply bind_ok in E. destruct E as (d1 & key & E1 & E2). destruct (string_inv _ _ _ _ _ HB Hr E1) as (r1 & -> & L & R1 & _). carry HW E1.
    apply is_bytes_split in HB. destruct HB as [_ HB1]. apply (kr_ok _ _ _ _ kr_string0) in E1. destruct key as [|c key].
    - unfold next_byte_must_be in E2. apply bind_ok in E2. destruct E2 as (d2 & m & E3 & E4). destruct (read_byte_inv _ _ _ _ _ R1 E3) as (rest & -> & R2).
      destruct (Z.eqb_spec m 9) as [->|]; [|discriminate]. inversion E4; subst. carry HW E3. apply (kr_ok _ _ _ _ kr_byte) in E3. exists [], rest, W. split; [reflexivity|]. split; [constructor|]. split; [exact R2|]. split; [exact I|].
      split; [cbn [map fold_right]; rewrite E3, E1; lia|]. split; [split; reflexivity|exact HW].
    - apply bind_ok in E2. destruct E2 as (d2 & v & E3 & E4). destruct (HD _ _ _ _ _ _ HB1 R1 HW E3) as (t & cm & W1 & r2 & ES & EC & Ht & R2 & _ & T1 & T2 & M & HW1).
      apply bind_ok in E4. destruct E4 as (d3 & u & E5 & E6).
      assert (R3 : d_r d3 = contr r2 e) by (inversion E5; subst; exact R2). assert (T3' : d_ref0 d3 = d_ref0 d2) by (inversion E5; subst; reflexivity). assert (HW2 : relw W1 d3) by (apply (relw_T3 _ d2); [inversion E5; reflexivity|exact HW1]).
      assert (EC' : cm = 0%nat).
      { destruct EC as [EC|EC]; [exact EC|]. exfalso. subst r2. destruct f as [|f]; cbn [obj_loop] in E6; [discriminate|]. apply bind_ok in E6. destruct E6 as (d4 & k2 & E6 & _).
        destruct (string_inv d3 [] e d4 k2 ltac:(constructor) R3 E6) as (r & X & _). discriminate X. }
      subst cm. apply cut_none in ES. subst r1. apply is_bytes_split in HB1. destruct HB1 as [_ HB2].
      destruct (IH _ _ _ _ _ _ HB2 R3 HW2 E6) as (fs & rest & W' & -> & Hfs & R4 & T4 & T5 & M2 & HW3). exists ((c :: key, t) :: fs), rest, W'. split; [|split; [|split; [exact R4|]]].
      + cbn [map concat fst snd]. rewrite <- !app_assoc. reflexivity.
      + constructor; [|exact Hfs]. split; cbn [fst snd]; [split; [apply len_pos; discriminate|exact L]|exact Ht].
      + rewrite E1 in *. rewrite T3', T2 in *. cbn [frefs map fold_right snd]. split; [split; assumption|]. split; [lia|]. split; [|exact HW3]. cbn [chain]. exists 0%nat, W1, 0%nat. repeat split; auto.
  Qed.
  Lemma object_invw fuel d s e d' loc W : is_bytes s -> d_r d = contr s e -> relw W d -> decode_object0 dec fuel d = (d', Ok loc) ->
    exists fs rest W', s = fields fs ++ [0; 0; 9] ++ rest /\ Forall fok fs /\ d_r d' = contr rest e /\ frefs (rlen d + 1) fs /\ rlen d' = rlen d + (1 + fslots fs) /\ chain (femb fs) W 0 W' /\ relw W' d'.
  Proof.
    intros HB Hr HW E. unfold decode_object0 in E. apply bind_ok in E. destruct E as (d1 & l1 & E1 & E2). apply bind_ok in E2. destruct E2 as (d2 & u & E2 & E3).
    apply bind_ok in E3. destruct E3 as (d3 & [] & E3 & E4). inversion E1; subst. inversion E2; subst. inversion E4; subst.
    destruct (obj_loop_invw _ _ (set_ref0 _ (set_heap _ d)) s e _ W HB Hr HW E3) as (fs & rest & W' & G1 & G2 & G3 & G4 & G5 & G6). exists fs, rest, W'. cbn [set_ref0 set_heap d_ref0] in G4, G5. rewrite len_app in G4, G5. change (len [VObj (Datatypes.length (d_heap d))]) with 1 in *. split; [exact G1|]. split; [exact G2|]. split; [exact G3|]. split; [exact G4|]. split; [lia|exact G6].
  Qed.
  Lemma loop_invw : forall fuel n d s e d' vs W, is_bytes s -> d_r d = contr s e -> relw W d -> loop_n dec fuel n d = (d', Ok vs) ->
    exists l c W' rest, s ++ repeat 0 c = concat (map layout0 l) ++ rest /\ (c = 0%nat \/ rest = []) /\ len l = Z.max 0 n /\ Forall (doc_ok true) l /\ d_r d' = contr rest e /\ end_ok (A_strict l) rest e /\ erefs (rlen d) l /\ rlen d' = rlen d + eslots l /\
      chain (map embedded l) W c W' /\ relw W' d'.
  Proof.
    assert (Hnil : forall (n : Z) s e d W, n <= 0 -> relw W d -> exists l c W' rest, s ++ repeat 0 c = concat (map layout0 l) ++ rest /\ (c = 0%nat \/ rest = []) /\ len l = Z.max 0 n /\ Forall (doc_ok true) l /\ contr s e = contr rest e /\ end_ok (A_strict l) rest e /\ erefs (rlen d) l /\ rlen d = rlen d + eslots l /\
      chain (map embedded l) W c W' /\ relw W' d).
    { intros n s e d W Hn HW. exists [], 0%nat, W, s. split; [cbn [map concat repeat app]; apply app_nil_r|]. split; [left; reflexivity|]. split; [unfold len; cbn; lia|]. split; [constructor|]. split; [reflexivity|]. split; [right; right; reflexivity|]. split; [exact I|]. split; [cbn; lia|]. split; [split; reflexivity|exact HW]. }
    induction fuel as [|f IH]; intros n d s e d' vs W HB Hr HW E; cbn [loop_n] in E; (destruct (Z.leb_spec n 0); [inversion E; subst; rewrite Hr; apply Hnil; assumption|]); [discriminate|].
    apply bind_ok in E. destruct E as (d1 & v & E1 & E2). destruct (HD _ _ _ _ _ _ HB Hr HW E1) as (t & c1 & W1 & r1 & ES & EC & Ht & R1 & HE1 & T1 & T2 & M1 & HW1).
    apply bind_ok in E2. destruct E2 as (d2 & l & E2 & E3). inversion E3; subst.
    assert (HB1 : is_bytes r1).
    { destruct EC as [-> | ->]; [|constructor]. apply cut_none in ES. subst s. apply is_bytes_split in HB. apply HB. }
    destruct (IH _ _ _ _ _ _ _ HB1 R1 HW1 E2) as (ts & c2 & W2 & rest & ES2 & EC2 & L & Hts & R2 & HE2 & T3' & T4 & M2 & HW2).
    assert (EM : c1 = 0%nat \/ ts = []).
    { destruct EC as [-> | ->]; [left; reflexivity|]. right. destruct ts as [|t2 ts]; [reflexivity|]. exfalso. apply (f_equal (@length Z)) in ES2. rewrite !app_length, repeat_length in ES2. cbn [length map concat] in ES2. rewrite app_length in ES2.
      cbn [chain map] in M2. destruct M2 as (a & W3 & b & A & B & -> & _). apply embedded_lengths in A. apply (chain_lengths _ (map layout0 ts)) in B; [lia|]. clear. induction ts as [|t l IH]; constructor; [intros W c W'; apply embedded_lengths|exact IH]. }
    exists (t :: ts), (c1 + c2)%nat, W2, rest. split; [|split; [|split; [rewrite len_cons; lia|]; split; [constructor; assumption|]; split; [exact R2|]]].
    - cbn [map concat]. destruct EM as [-> | ->].
      + apply cut_none in ES. subst s. cbn [Nat.add]. rewrite <- !app_assoc. f_equal. exact ES2.
      + cbn [map concat chain] in *. destruct M2 as [-> _]. apply cut_none in ES2. subst r1. rewrite Nat.add_0_r, app_nil_r. exact ES.
    - destruct EM as [-> | ->]; [exact EC2|]. cbn [map chain] in M2. destruct M2 as [-> _]. apply cut_none in ES2. cbn [concat map app] in ES2. subst r1. rewrite Nat.add_0_r. exact EC.
    - split; [|rewrite T2 in *; cbn [erefs map fold_right]; split; [split; assumption|]; split; [lia|]; split; [|exact HW2]].
      + destruct HE2 as [HE2|[HE2|HE2]]; [left; exact HE2|right; left; exact HE2|]. destruct ts as [|t2 ts].
        * cbn [map concat app chain] in ES2, M2. destruct M2 as [-> _]. apply cut_none in ES2. subst r1. destruct HE1 as [H1|[H1|H1]]; [left; exact H1|right; left; exact H1|right; right; exact H1].
        * right; right. destruct (exists_last (l := t2 :: ts) ltac:(discriminate)) as (l' & x & El). rewrite El in *. change (t :: l' ++ [x]) with ((t :: l') ++ [x]). cbn [doc_ends_empty] in *. rewrite map_app, rev_app_distr in *. exact HE2.
      + cbn [chain]. exists c1, W1, c2. split; [exact M1|]. split; [exact M2|]. split; [reflexivity|]. destruct EM as [EM| ->]; [left; exact EM|right; reflexivity].
  Qed.
End Acc.

Ltac leafw t W HW := exists t, 0%nat, W; eexists; split; [cbn [repeat]; rewrite app_nil_r; reflexivity|]; split; [left; reflexivity|]; split; [|split; [first [eassumption|reflexivity]|split; [right; right; reflexivity|split; [exact I|split; [kk|split; [split; reflexivity|exact HW]]]]]].
Theorem dec0_accw : forall fuel, accw (dec0 fuel).
Proof.
  induction fuel as [|f IH]; intros d s e d' v W HB Hr HW E; cbn [dec0] in E; [discriminate|].
  apply bind_ok in E. destruct E as (d1 & m & E1 & E). destruct (read_byte_inv _ _ _ _ _ Hr E1) as (s1 & -> & R1). carry HW E1.
  assert (HB1 : is_bytes s1) by (inversion HB; assumption).
  destruct (Z.eqb_spec m 0) as [->|_].
  { apply bind_ok in E. destruct E as (d2 & b & E2 & E3). inversion E3; subst. destruct (read_be_inv 8 _ _ _ _ _ ltac:(lia) R1 E2) as (a & rest & -> & L & -> & R2). carry HW E2.
    apply is_bytes_split in HB1. destruct (be64_inv a (proj1 HB1) L) as [Ea Ra]. exists (A_number (be_val a)), 0%nat, W, rest. cbn [layout0 app repeat]. rewrite <- Ea, app_nil_r. split; [reflexivity|]. split; [left; reflexivity|]. split; [exact Ra|]. split; [exact R2|]. split; [right; right; reflexivity|]. split; [exact I|]. split; [kk|]. split; [split; reflexivity|exact HW]. }
  destruct (Z.eqb_spec m 1) as [->|_].
  { apply bind_ok in E. destruct E as (d2 & b & E2 & E3). inversion E3; subst. destruct (read_byte_inv _ _ _ _ _ R1 E2) as (rest & -> & R2). carry HW E2.
    leafw (A_boolean b) W HW. cbn [doc_ok]. inversion HB1; assumption. }
  destruct (Z.eqb_spec m 2) as [->|_].
  { apply bind_ok in E. destruct E as (d2 & b & E2 & E3). inversion E3; subst. destruct (string_inv _ _ _ _ _ HB1 R1 E2) as (rest & -> & L & R2 & HE). carry HW E2.
    exists (A_string b), 0%nat, W, rest. split; [apply app_nil_r|]. split; [left; reflexivity|]. split; [exact L|]. split; [exact R2|]. split; [unfold end_ok; destruct b; [destruct (HE eq_refl); tauto|right; right; reflexivity]|]. split; [exact I|]. split; [kk|]. split; [split; reflexivity|exact HW]. }
  destruct (Z.eqb_spec m 3) as [->|_].
  { apply bind_ok in E. destruct E as (d2 & b & E2 & E3). inversion E3; subst. destruct (object_invw _ IH _ _ _ _ _ _ _ HB1 R1 HW E2) as (fs & rest & W' & -> & Hfs & R2 & T1 & T2 & M & HW').
    exists (A_object fs), 0%nat, W', rest. split; [cbn [layout0 app repeat]; rewrite <- !app_assoc, ?app_nil_r; reflexivity|]. split; [left; reflexivity|]. split; [apply fok_all, Hfs|]. split; [exact R2|]. split; [right; right; reflexivity|]. rewrite T2, (kr_ok _ _ _ _ kr_byte E1) in *. split; [exact T1|]. split; [reflexivity|]. split; [split; [reflexivity|exact M]|exact HW']. }
  destruct (Z.eqb_spec m 4) as [->|_]; [discriminate|].
  destruct (Z.eqb_spec m 5) as [->|_]; [inversion E; subst; leafw A_null W HW; exact I|].
  destruct (Z.eqb_spec m 6) as [->|_]; [inversion E; subst; leafw A_undefined W HW; exact I|].
  destruct (Z.eqb_spec m 13) as [->|_]; [inversion E; subst; leafw A_unsupported W HW; exact I|]. cbn [orb] in E.
  destruct (Z.eqb_spec m 7) as [->|_].
  { apply bind_ok in E. destruct E as (d2 & b & E2 & E3). destruct (read_be_inv 2 _ _ _ _ _ ltac:(lia) R1 E2) as (a & rest & -> & L & -> & R2). carry HW E2.
    apply is_bytes_split in HB1. destruct (be16_inv a (proj1 HB1) L) as [Ea Ra]. destruct (Z.ltb_spec (len (d_ref0 d2)) (be_val a)); [discriminate|]. destruct (Z.eqb_spec (be_val a) (len (d_ref0 d2))); inversion E3; subst.
    exists (A_reference (be_val a)), 0%nat, W, rest. cbn [layout0 app repeat]. rewrite <- Ea, app_nil_r. split; [reflexivity|]. split; [left; reflexivity|]. split; [split; [reflexivity|exact Ra]|]. split; [exact R2|]. split; [right; right; reflexivity|].
    apply (kr_ok _ _ _ _ (kr_read_be 2)) in E2. apply (kr_ok _ _ _ _ kr_byte) in E1. rewrite E2, E1 in *. cbn [refs_in slots]. split; [lia|]. split; [lia|]. split; [split; reflexivity|exact HW]. }
  destruct (Z.eqb_spec m 8) as [->|_].
  { unfold decode_ecma0 in E. apply bind_ok in E. destruct E as (d2 & n & E2 & E3). destruct (read_be_inv 4 _ _ _ _ _ ltac:(lia) R1 E2) as (a & r2 & -> & L & -> & R2). carry HW E2.
    apply is_bytes_split in HB1. destruct HB1 as [HBa HB1]. destruct (be32_inv a HBa L) as [Ea Ra]. apply bind_ok in E3. destruct E3 as (d3 & loc & E3 & E4). inversion E4; subst.
    destruct (object_invw _ IH _ _ _ _ _ _ _ HB1 R2 HW E3) as (fs & rest & W' & -> & Hfs & R3 & T1 & T2 & M & HW').
    exists (A_ecma (be_val a) fs), 0%nat, W', rest. split; [cbn [layout0 app repeat]; rewrite <- Ea, <- !app_assoc, ?app_nil_r; reflexivity|]. split; [left; reflexivity|]. split; [split; [exact Ra|apply fok_all, Hfs]|]. split; [exact R3|]. split; [right; right; reflexivity|].
    rewrite T2, (kr_ok _ _ _ _ (kr_read_be 4) E2), (kr_ok _ _ _ _ kr_byte E1) in *. split; [exact T1|]. split; [reflexivity|]. split; [split; [reflexivity|exact M]|exact HW']. }
  destruct (Z.eqb_spec m 10) as [->|_].
  { unfold decode_strict0 in E. apply bind_ok in E. destruct E as (d2 & n & E2 & E3). destruct (read_be_inv 4 _ _ _ _ _ ltac:(lia) R1 E2) as (a & r2 & -> & L & -> & R2). carry HW E2.
    apply is_bytes_split in HB1. destruct HB1 as [HBa HB1]. destruct (be32_inv a HBa L) as [Ea Ra]. apply bind_ok in E3. destruct E3 as (d3 & u & E3 & E4). inversion E3; subst.
    apply bind_ok in E4. destruct E4 as (d4 & l & E4 & E5). inversion E5; subst. destruct (loop_invw _ IH _ _ (set_ref0 (d_ref0 d2 ++ [VArr []]) d2) r2 e _ _ W HB1 R2 HW E4) as (ts & c & W' & rest & ES & EC & Lt & Hts & R3 & HE & T1 & T2 & M & HW').
    exists (A_strict ts), c, W', rest. split; [cbn [layout0 app]; rewrite Lt, Z.max_r by lia; rewrite <- Ea, <- !app_assoc, ES; reflexivity|]. split; [exact EC|]. split; [split; [lia|apply all_of_map, Hts]|]. split; [exact R3|]. split; [exact HE|].
    cbn [set_ref0 d_ref0] in T1, T2. rewrite len_app in T1, T2. change (len [VArr []]) with 1 in T1, T2. rewrite T2, (kr_ok _ _ _ _ (kr_read_be 4) E2), (kr_ok _ _ _ _ kr_byte E1) in *. split; [exact T1|]. split; [cbn [slots]; lia|]. split; [exact M|exact HW']. }
  destruct (Z.eqb_spec m 11) as [->|_].
  { unfold decode_date0 in E. apply bind_ok in E. destruct E as (d2 & b & E2 & E3). destruct (read_be_inv 8 _ _ _ _ _ ltac:(lia) R1 E2) as (a & r2 & -> & L & -> & R2). carry HW E2.
    apply is_bytes_split in HB1. destruct HB1 as [HBa HB1]. destruct (be64_inv a HBa L) as [Ea Ra]. apply bind_ok in E3. destruct E3 as (d3 & z & E3 & E4). inversion E4; subst.
    destruct (read_bytes_inv _ _ _ _ _ _ R2 E3) as (rest & -> & R3 & Lz & _). carry HW E3. apply is_bytes_split in HB1. destruct (be16_inv z (proj1 HB1) Lz) as [Ez Rz].
    exists (A_date (be_val a) (be_val z)), 0%nat, W, rest. split; [cbn [layout0 app repeat]; rewrite <- Ea, <- Ez, <- !app_assoc, ?app_nil_r; reflexivity|]. split; [left; reflexivity|]. split; [split; assumption|]. split; [exact R3|]. split; [right; right; reflexivity|]. split; [exact I|]. split; [kk|]. split; [split; reflexivity|exact HW]. }
  destruct (Z.eqb_spec m 12) as [->|_].
  { apply bind_ok in E. destruct E as (d2 & b & E2 & E3). inversion E3; subst. destruct (longstring_inv _ _ _ _ _ HB1 R1 E2) as (rest & -> & L & R2 & HE). carry HW E2.
    exists (A_long b), 0%nat, W, rest. split; [apply app_nil_r|]. split; [left; reflexivity|]. split; [exact L|]. split; [exact R2|]. split; [unfold end_ok; destruct b; [destruct (HE eq_refl); tauto|right; right; reflexivity]|]. split; [exact I|]. split; [kk|]. split; [split; reflexivity|exact HW]. }
  destruct (Z.eqb_spec m 14) as [->|_]; [discriminate|].
  destruct (Z.eqb_spec m 15) as [->|_].
  { apply bind_ok in E. destruct E as (d2 & b & E2 & E3). inversion E3; subst. destruct (longstring_inv _ _ _ _ _ HB1 R1 E2) as (rest & -> & L & R2 & HE). carry HW E2.
    exists (A_xml b), 0%nat, W, rest. split; [apply app_nil_r|]. split; [left; reflexivity|]. split; [exact L|]. split; [exact R2|]. split; [unfold end_ok; destruct b; [destruct (HE eq_refl); tauto|right; right; reflexivity]|]. split; [exact I|]. split; [kk|]. split; [split; reflexivity|exact HW]. }
  destruct (Z.eqb_spec m 16) as [->|_].
  { unfold decode_typed0 in E. apply bind_ok in E. destruct E as (d2 & u & E2 & E3). inversion E2; subst. apply bind_ok in E3. destruct E3 as (d3 & ty & E3 & E4).
    destruct (string_inv (set_ref0 (d_ref0 d1 ++ [VTyped [] None]) d1) s1 e _ _ HB1 R1 E3) as (r2 & -> & L & R2 & _). apply is_bytes_split in HB1. destruct HB1 as [_ HB1].
    assert (HW1 : relw W (set_ref0 (d_ref0 d1 ++ [VTyped [] None]) d1)) by exact HW. carry HW1 E3.
    apply bind_ok in E4. destruct E4 as (d4 & loc & E4 & E5). inversion E5; subst. destruct (object_invw _ IH _ _ _ _ _ _ _ HB1 R2 HW1 E4) as (fs & rest & W' & -> & Hfs & R3 & T1 & T2 & M & HW').
    exists (A_typed ty fs), 0%nat, W', rest. split; [cbn [layout0 app repeat]; rewrite <- !app_assoc, ?app_nil_r; reflexivity|]. split; [left; reflexivity|]. split; [split; [exact L|apply fok_all, Hfs]|]. split; [exact R3|]. split; [right; right; reflexivity|].
    apply (kr_ok _ _ _ _ kr_string0) in E3. rewrite E3 in T1, T2. cbn [set_ref0 d_ref0] in T1, T2. rewrite len_app in T1, T2. change (len [VTyped [] None]) with 1 in T1, T2. rewrite T2, (kr_ok _ _ _ _ kr_byte E1) in *.
    rewrite refs_typed. split; [replace (rlen d + 2) with (rlen d + 1 + 1) by lia; exact T1|]. split; [cbn [slots]; lia|]. split; [split; [reflexivity|exact M]|exact HW']. }
  destruct (Z.eqb_spec m 17) as [->|_]; [|discriminate].
  destruct (dec3_acr f d1 s1 e d' v W HB1 R1 HW E) as (w & rest & k & W' & ES & EK & R2 & HW' & p & HV).
  exists (A_avmplus w), k, W', rest. split; [cbn [layout0 app]; rewrite ES; reflexivity|]. split; [tauto|]. split; [reflexivity|]. split; [exact R2|]. split; [right; right; reflexivity|]. split; [exact I|]. split; [kk|]. split; [exists p; exact HV|exact HW'].
Qed.

(** * Documents are accepted *)
Definition RTW (t : doc0) : Prop := doc_ok true t -> forall fuel d s c W W' rest e, refs_in (rlen d) t -> embedded t W c W' -> relw W d -> (length (layout0 t) < fuel + c)%nat ->
  s ++ repeat 0 c = layout0 t ++ rest -> c = 0%nat \/ rest = [] -> d_r d = contr s e -> doc_end rest e t ->
  exists d' v, dec0 fuel d = (d', Ok v) /\ d_r d' = contr rest e /\ rlen d' = rlen d + slots t /\ relw W' d'.

Lemma fields_prefixw fs : Forall (fun p => RTW (snd p)) fs -> Forall fok fs -> forall fuel k loc d W W' rest e, frefs (rlen d) fs -> chain (femb fs) W 0 W' -> relw W d -> rest <> [] ->
  (length (layout_fields fs) < fuel)%nat -> (length fs < k)%nat -> d_r d = contr (layout_fields fs ++ rest) e ->
  exists d', obj_loop (dec0 fuel) k loc d = obj_loop (dec0 fuel) (k - length fs) loc d' /\ d_r d' = contr rest e /\ rlen d' = rlen d + fslots fs /\ relw W' d'.
Proof.
  induction fs as [|[key t] fs IH]; intros HRT Hok fuel k loc d W W' rest e HF HC HW Hne Hf Hk Hr.
  - exists d. cbn [length map fold_right]. rewrite Nat.sub_0_r, Z.add_0_r. destruct HC as [_ ->]. split; [reflexivity|]. split; [exact Hr|]. split; [reflexivity|exact HW].
  - inversion HRT as [|? ? HRt HRl]; inversion Hok as [|? ? [Hkl Hot] Hol]; subst. cbn [fst snd] in *. destruct HF as [HF1 HF2].
    destruct k as [|k]; [cbn [length] in Hk; lia|]. cbn [map chain snd] in HC. destruct HC as (c1 & W1 & c2 & C1 & C2 & EC & _). assert (c1 = 0%nat /\ c2 = 0%nat) as [-> ->] by lia.
    unfold layout_fields in Hf, Hr. cbn [map concat fst snd] in Hf, Hr. fold (layout_fields fs) in Hf, Hr. rewrite <- !app_assoc in Hr. rewrite !app_length in Hf.
    assert (Hkne : key <> []) by (intros ->; unfold len in Hkl; cbn [length] in Hkl; lia).
    set (d0 := set_r (contr (layout0 t ++ layout_fields fs ++ rest) e) d).
    assert (Es : decode_string0 d = (d0, Ok key)) by (unfold d0; apply decode_string0_contr; [exact Hr|lia|left; exact Hkne]).
    destruct (HRt Hot fuel d0 (layout0 t ++ layout_fields fs ++ rest) 0%nat W W1 (layout_fields fs ++ rest) e HF1 C1 HW ltac:(lia) (app_nil_r _) ltac:(left; reflexivity) eq_refl) as (d1 & v & E1 & R1 & T1 & HW1).
    { left. intros X. apply app_eq_nil in X. destruct X as [_ X]. apply Hne, X. }
    destruct (IH HRl Hol fuel k loc (set_heap (upd_nth loc (map_set key v) (d_heap d1)) d1) W1 W' rest e) as (d2 & E2 & R2 & T2 & HW2); [|exact C2|exact HW1|exact Hne|lia|cbn [length] in Hk; lia|exact R1|].
    { change (frefs (rlen d1) fs). rewrite T1. exact HF2. }
    exists d2. cbn [length Nat.sub]. split; [|split; [exact R2|split; [|exact HW2]]].
    + cbn [obj_loop]. erewrite dbind_ok by exact Es. destruct key as [|c key]; [congruence|]. erewrite dbind_ok by exact E1. erewrite dbind_ok by reflexivity. exact E2.
    + rewrite T2. change (rlen d1 + fslots fs = rlen d + (slots t + fslots fs)). rewrite T1. change (rlen d0) with (rlen d). lia.
Qed.
Lemma elems_lengths l : forall W c W', chain (map embedded l) W c W' -> (length l + c <= length (concat (map layout0 l)))%nat.
Proof.
  intros W c W' H. apply (chain_lengths _ (map layout0 l)) in H; [rewrite map_length in H; exact H|]. clear. induction l as [|t l IH]; constructor; [intros W c W'; apply embedded_lengths|exact IH].
Qed.

Lemma elems_prefixw l : Forall RTW l -> Forall (doc_ok true) l -> forall fuel k n d s c W W' rest e, erefs (rlen d) l -> chain (map embedded l) W c W' -> relw W d -> doc_end rest e (A_strict l) ->
  (length (concat (map layout0 l)) < fuel + c)%nat -> (length l <= k)%nat -> len l <= n -> s ++ repeat 0 c = concat (map layout0 l) ++ rest -> c = 0%nat \/ rest = [] -> d_r d = contr s e ->
  exists d' vs, d_r d' = contr rest e /\ rlen d' = rlen d + eslots l /\ relw W' d' /\
    loop_n (dec0 fuel) k n d = match loop_n (dec0 fuel) (k - length l) (n - len l) d' with (d2, Ok ws) => (d2, Ok (vs ++ ws)) | x => x end.
Proof.
  induction l as [|t l IH]; intros HRT Hok fuel k n d s c W W' rest e HF HC HW Hs Hf Hk Hn ES EC Hr.
  - destruct HC as [-> ->]. apply cut_none in ES. cbn [map concat app] in ES. subst s. exists d, []. cbn [length map fold_right]. rewrite Nat.sub_0_r, Z.add_0_r. change (len (@nil doc0)) with 0. rewrite Z.sub_0_r. split; [exact Hr|]. split; [reflexivity|]. split; [exact HW|].
    destruct (loop_n (dec0 fuel) k n d) as [d2 [ws|x| |]]; reflexivity.
  - inversion HRT as [|? ? HRt HRl]; inversion Hok as [|? ? Hot Hol]; subst. destruct HF as [HF1 HF2]. rewrite len_cons in *. pose proof (len_nonneg l) as Hln.
    destruct k as [|k]; [cbn [length] in Hk; lia|]. cbn [map concat] in Hf, ES. rewrite app_length in Hf. rewrite <- app_assoc in ES.
    cbn [map chain] in HC. destruct HC as (c1 & W1 & c2 & C1 & C2 & -> & EM). pose proof (elems_lengths _ _ _ _ C2) as L2. pose proof (embedded_lengths _ _ _ _ C1) as L1.
    assert (EM' : c1 = 0%nat \/ concat (map layout0 l) = []) by (destruct EM as [EM|EM]; [left; exact EM|right; destruct l; [reflexivity|discriminate EM]]).
    destruct (cut_split s c1 c2 (layout0 t) (concat (map layout0 l)) rest ES ltac:(lia || tauto) ltac:(lia) EM') as (s2 & ES1 & EC1 & ES2 & EC2).
    destruct (HRt Hot fuel d s c1 W W1 s2 e HF1 C1 HW) as (d1 & v & E1 & R1 & T1 & HW1); [destruct EM' as [-> |EM']; [lia|rewrite EM' in *; cbn [length] in *; lia]|exact ES1|exact EC1|exact Hr| |].
    { destruct Hs as [Hs|[Hs|Hs]].
      - left. intros ->. destruct EC as [EC|EC]; [|congruence]. assert (c2 = 0%nat) by lia. subst c2. apply cut_none in ES2. symmetry in ES2. apply app_eq_nil in ES2. tauto.
      - right; left; exact Hs.
      - destruct l as [|t2 l]; [right; right; exact Hs|]. left. intros ->. apply (f_equal (@length Z)) in ES2. rewrite !app_length, repeat_length in ES2. cbn [length] in L2, ES2. lia. }
    destruct (IH HRl Hol fuel k (n - 1) d1 s2 c2 W1 W' rest e) as (d2 & vs & R2 & T2 & HW2 & E2); [rewrite T1; exact HF2|exact C2|exact HW1| | |cbn [length] in Hk; lia|lia|exact ES2|exact EC2|exact R1|].
    { destruct Hs as [Hs|[Hs|Hs]]; [left; exact Hs|right; left; exact Hs|]. destruct l as [|t2 l]; [right; right; reflexivity|].
      right; right. destruct (exists_last (l := t2 :: l) ltac:(discriminate)) as (l' & x & El). rewrite El in *. rewrite doc_ends_last. change (t :: l' ++ [x]) with ((t :: l') ++ [x]) in Hs. rewrite doc_ends_last in Hs. exact Hs. }
    { destruct EM' as [-> |EM']; [lia|rewrite EM' in *; cbn [length] in *; lia]. }
    exists d2, (v :: vs). split; [exact R2|]. split; [rewrite T2, T1; cbn [map fold_right]; lia|]. split; [exact HW2|].
    cbn [loop_n length Nat.sub]. destruct (Z.leb_spec n 0); [lia|]. erewrite dbind_ok by exact E1. unfold dbind. rewrite E2. replace (n - (1 + len l)) with (n - 1 - len l) by lia.
    destruct (loop_n (dec0 fuel) (k - length l) (n - 1 - len l) d2) as [d3 [ws|x| |]]; reflexivity.
Qed.
Lemma object_refsw fs : Forall (fun p => RTW (snd p)) fs -> Forall fok fs -> forall fuel k d W W' rest e, frefs (rlen d + 1) fs -> chain (femb fs) W 0 W' -> relw W d ->
  (length (layout_fields fs) < fuel)%nat -> (length fs < k)%nat -> d_r d = contr (layout_fields fs ++ [0; 0; 9] ++ rest) e ->
  exists d' loc, decode_object0 (dec0 fuel) k d = (d', Ok loc) /\ d_r d' = contr rest e /\ rlen d' = rlen d + (1 + fslots fs) /\ relw W' d'.
Proof.
  intros HRT Hok fuel k d W W' rest e HF HC HW Hf Hk Hr. unfold decode_object0. erewrite dbind_ok by reflexivity. erewrite dbind_ok by reflexivity. set (d1 := set_ref0 _ _).
  assert (L1 : rlen d1 = rlen d + 1) by (unfold d1; cbn [set_ref0 set_heap d_ref0]; rewrite len_app; reflexivity).
  destruct (fields_prefixw fs HRT Hok fuel k (length (d_heap d)) d1 W W' ([0; 0; 9] ++ rest) e) as (d2 & E & R & T & HW'); [rewrite L1; exact HF|exact HC|exact HW|discriminate|exact Hf|exact Hk|exact Hr|].
  exists (set_r (contr rest e) d2), (length (d_heap d)). split; [|split; [reflexivity|split; [cbn [set_r d_ref0]; rewrite T, L1; lia|exact HW']]].
  erewrite dbind_ok; [reflexivity|]. rewrite E. apply obj_loop_end; [lia|exact R].
Qed.
Ltac finw HM HW := split; [reflexivity|]; split; [cbn [set_r d_ref0 slots]; lia|exact HW].
Theorem dec0_refsw t : RTW t.
Proof.
  induction t as [b|b|s|fs IH| | |i|s|n fs IH|l IH|b z|s| |s|ty fs IH] using doc0_ind';
    intros Hok [|fuel] d x c W W' rest e HF HM HW Hf ES EC Hr Hs; try (exfalso; pose proof (embedded_lengths _ _ _ _ HM); lia); cbn [doc_ok embedded layout0] in *;
    change (2 ^ 64) with 18446744073709551616 in *; change (2 ^ 32) with 4294967296 in *; change (2 ^ 16) with 65536 in *;
    try (destruct HM as [-> HM]; try subst W'; apply cut_none in ES; subst x; rewrite Nat.add_0_r in Hf; clear EC).
  - do 2 eexists. split; [apply dec0_number; [exact Hok|exact Hr]|]. finw HM HW.
  - do 2 eexists. split; [step0 Hr; erewrite dbind_ok by (eapply read_byte_contr; reflexivity); reflexivity|]. finw HM HW.
  - assert (Hs' : s <> [] \/ rest <> [] \/ e_zero e = false).
    { destruct s; [|left; discriminate]. destruct Hs as [H|[H|H]]; [tauto|tauto|cbn in H; discriminate]. }
    do 2 eexists. split; [step0 Hr; erewrite dbind_ok by (eapply decode_string0_contr; [reflexivity|lia|exact Hs']); reflexivity|]. finw HM HW.
  - apply all_of_map in Hok. cbn [length app] in Hf, Hr. rewrite app_length in Hf. fold (layout_fields fs) in Hf, Hr.
    rewrite <- app_assoc in Hr. cbn [length] in Hf. pose proof (layout_fields_length fs) as Hwl.
    destruct (object_refsw fs IH Hok fuel fuel (set_r (contr (layout_fields fs ++ [0; 0; 9] ++ rest) e) d) W W' rest e) as (d' & loc & E & R & T); [exact HF|exact HM|exact HW|lia|lia|reflexivity|].
    exists d', (VObj loc). split; [|split; [exact R|exact T]]. step0 Hr. erewrite dbind_ok by exact E. reflexivity.
  - do 2 eexists. split; [step0 Hr; reflexivity|]. finw HM HW.
  - do 2 eexists. split; [step0 Hr; reflexivity|]. finw HM HW.
  - destruct Hok as [_ Hi]. cbn [refs_in] in HF. cbn [app] in Hr. do 2 eexists. split.
    + step0 Hr. unfold decode_reference0. erewrite dbind_ok by (change 2 with (len (be16 i)); eapply read_be_contr; [reflexivity|reflexivity]). rewrite be_val_be16, Z.mod_small by lia. cbn [d_ref0 set_r].
      destruct (Z.ltb_spec (rlen d) i); [lia|]. destruct (Z.eqb_spec i (rlen d)); [lia|]. reflexivity.
    + finw HM HW.
  - destruct HM as (p & HV). cbn [length] in Hf. destruct x as [|x0 x]; [pose proof (proj1 (cut_lengths Library) _ _ _ _ _ HV); apply (f_equal (@length Z)) in ES; rewrite !app_length, repeat_length in ES; cbn [length] in ES; lia|].
    cbn [app] in ES. injection ES as -> ES. 
    destruct (proj1 (dec3_ref Library) W s c p W' HV eq_refl fuel (set_r (contr x e) d) x rest e) as (d' & v & hs & H1 & H2 & _ & _ & H5); [lia|exact ES|exact EC|reflexivity|exact HW|].
    exists d', v. split; [|split; [exact H2|split; [|exact H5]]].
    + cbn [dec0]. erewrite dbind_ok by (eapply read_byte_contr; exact Hr). exact H1.
    + rewrite (kr_ok _ _ _ _ (kr_dec3 fuel) H1). cbn [set_r d_ref0 slots]. lia.
  - destruct Hok as [Hn Hok]. apply all_of_map in Hok. cbn [length app] in Hf, Hr. rewrite !app_length in Hf. fold (layout_fields fs) in Hf, Hr.
    rewrite <- !app_assoc in Hr. cbn [length be32] in Hf. pose proof (layout_fields_length fs) as Hwl.
    destruct (object_refsw fs IH Hok fuel fuel (set_r (contr (layout_fields fs ++ [0; 0; 9] ++ rest) e) d) W W' rest e) as (d' & loc & E & R & T); [exact HF|exact HM|exact HW|lia|lia|reflexivity|].
    exists d', (VObj loc). split; [|split; [exact R|exact T]]. step0 Hr. unfold decode_ecma0.
    erewrite dbind_ok by (change 4 with (len (be32 n)); eapply read_be_contr; [reflexivity|reflexivity]).
    rewrite ?set_r_set_r. erewrite dbind_ok by exact E. reflexivity.
  - destruct Hok as [Hlen Hall]. apply all_of_map in Hall.
    cbn [length app] in Hf, ES. rewrite app_length in Hf. cbn [be32 length] in Hf. rewrite <- app_assoc in ES. pose proof (elems_lengths _ _ _ _ HM) as Hcl.
    assert (EX : exists x', x = 10 :: be32 (len l) ++ x' /\ x' ++ repeat 0 c = concat (map layout0 l) ++ rest).
    { destruct (cut_split x 0 c (10 :: be32 (len l)) (concat (map layout0 l)) rest) as (s2 & A & _ & B & _); [exact ES|exact EC|lia|left; reflexivity|]. exists s2. apply cut_none in A. split; [exact A|exact B]. }
    destruct EX as (x' & -> & ES'). cbn [app] in Hr.
    set (d1 := set_ref0 (d_ref0 d ++ [VArr []]) (set_r (contr x' e) d)).
    assert (L1 : rlen d1 = rlen d + 1) by (unfold d1; cbn [set_ref0 d_ref0]; rewrite len_app; reflexivity).
    destruct (elems_prefixw l IH Hall fuel fuel (len l) d1 x' c W W' rest e) as (d' & vs & R & T & HW' & E); [rewrite L1; exact HF|exact HM|exact HW|exact Hs|lia|lia|lia|exact ES'|exact EC|reflexivity|].
    exists d', (VArr (vs ++ [])). split; [|split; [exact R|split; [rewrite T, L1; cbn [slots]; lia|exact HW']]]. step0 Hr. unfold decode_strict0.
    erewrite dbind_ok by (change 4 with (len (be32 (len l))); eapply read_be_contr; [reflexivity|reflexivity]).
    rewrite be_val_be32, Z.mod_small by (pose proof (len_nonneg l); lia).
    assert (E' : loop_n (dec0 fuel) fuel (len l) d1 = (d', Ok (vs ++ []))) by (rewrite E, Z.sub_diag; destruct (fuel - length l)%nat; reflexivity).
    erewrite dbind_ok by reflexivity. erewrite dbind_ok by exact E'. reflexivity.
  - destruct Hok as [Hb Hz]. cbn [app] in Hr. rewrite <- app_assoc in Hr. do 2 eexists. split.
    + step0 Hr. unfold decode_date0.
      erewrite dbind_ok by (change 8 with (len (be64 b)); eapply read_be_contr; [reflexivity|reflexivity]).
      erewrite dbind_ok by (change 2 with (len (be16 z)); eapply read_bytes_contr; [reflexivity|reflexivity]). reflexivity.
    + finw HM HW.
  - assert (Hs' : s <> [] \/ rest <> [] \/ e_zero e = false).
    { destruct s; [|left; discriminate]. destruct Hs as [H|[H|H]]; [tauto|tauto|cbn in H; discriminate]. }
    do 2 eexists. split; [step0 Hr; erewrite dbind_ok by (eapply decode_longstring0_contr; [reflexivity|lia|exact Hs']); reflexivity|]. finw HM HW.
  - do 2 eexists. split; [step0 Hr; reflexivity|]. finw HM HW.
  - assert (Hs' : s <> [] \/ rest <> [] \/ e_zero e = false).
    { destruct s; [|left; discriminate]. destruct Hs as [H|[H|H]]; [tauto|tauto|cbn in H; discriminate]. }
    do 2 eexists. split; [step0 Hr; erewrite dbind_ok by (eapply decode_longstring0_contr; [reflexivity|lia|exact Hs']); reflexivity|]. finw HM HW.
  - destruct Hok as (Htl & Hok). apply all_of_map in Hok.
    cbn [length app] in Hf, Hr. rewrite !app_length in Hf. fold (layout_fields fs) in Hf, Hr.
    rewrite <- !app_assoc in Hr. cbn [length] in Hf. pose proof (layout_fields_length fs) as Hwl.
    set (d1 := set_r (contr (layout_fields fs ++ [0; 0; 9] ++ rest) e)
                 (set_ref0 (d_ref0 d ++ [VTyped [] None])
                    (set_r (contr (wire_utf8 ty ++ layout_fields fs ++ [0; 0; 9] ++ rest) e) d))).
    assert (L1 : rlen d1 = rlen d + 1) by (unfold d1; cbn [set_r set_ref0 d_ref0]; rewrite len_app; reflexivity).
    destruct (object_refsw fs IH Hok fuel fuel d1 W W' rest e) as (d' & loc & E & R & T & HW'); [rewrite L1; rewrite refs_typed in HF; replace (rlen d + 1 + 1) with (rlen d + 2) by lia; exact HF|exact HM|exact HW|lia|lia|reflexivity|].
    exists d', (VTyped ty (Some loc)). split; [|split; [exact R|split; [rewrite T, L1; cbn [slots]; lia|exact HW']]].
    step0 Hr. unfold decode_typed0. erewrite dbind_ok by reflexivity.
    erewrite dbind_ok by (eapply decode_string0_contr; [reflexivity|exact Htl|right; left; intros X; apply app_eq_nil in X; destruct X; discriminate]).
    erewrite dbind_ok by exact E. reflexivity.
Qed.

(** * Where Decode panics *)
Definition at_cutw (W : world) (n : Z) (s : bytes) : Prop := exists o i rest W',
  s = open_layout o ++ 7 :: be16 i ++ rest /\ open_ok o /\ open_refs n o /\ open_embedded o W W' /\ 0 <= i < 2 ^ 16 /\ i = n + open_slots o.
Definition panw (m : Dm value) : Prop := forall d s e W, is_bytes s -> d_r d = contr s e -> relw W d -> snd (m d) = Panic -> at_cutw W (rlen d) s.

Section Pan.
  Variable dec : Dm value.
  Hypothesis HA : accw dec.
  Hypothesis HP : panw dec.
  Notation fields fs := (concat (map (fun p => wire_utf8 (fst p) ++ layout0 (snd p)) fs)).
  Definition in_fieldsw (W : world) (n : Z) (s : bytes) : Prop := exists fs k o i rest W1 W',
    s = fields fs ++ wire_utf8 k ++ open_layout o ++ 7 :: be16 i ++ rest /\ Forall fok fs /\ 0 < len k <= 65535 /\ open_ok o /\
    frefs n fs /\ open_refs (n + fslots fs) o /\ chain (femb fs) W 0 W1 /\ open_embedded o W1 W' /\ 0 <= i < 2 ^ 16 /\ i = n + fslots fs + open_slots o.
  Lemma obj_loop_panicw : forall fuel loc d s e W, is_bytes s -> d_r d = contr s e -> relw W d -> snd (obj_loop dec fuel loc d) = Panic -> in_fieldsw W (rlen d) s.
  Proof.
    induction fuel as [|f IH]; intros loc d s e W HB Hr HW E; cbn [obj_loop] in E; [discriminate|].
    apply (bind_panic_np _ _ _ np_string0) in E. destruct E as (d1 & key & E1 & E2). destruct (string_inv _ _ _ _ _ HB Hr E1) as (r1 & -> & L & R1 & _). carry HW E1.
    apply is_bytes_split in HB. destruct HB as [_ HB1]. apply (kr_ok _ _ _ _ kr_string0) in E1. destruct key as [|c key].
    - exfalso. exact (np_must 9 d1 E2).
    - assert (Hk : 0 < len (c :: key) <= 65535) by (split; [apply len_pos; discriminate|exact L]).
      apply bind_panic in E2. destruct E2 as [E2|(d2 & v & E3 & E4)].
      + destruct (HP _ _ _ _ HB1 R1 HW E2) as (o & i & rest & W' & -> & O1 & O2 & O2' & O3 & O4). rewrite E1 in *. exists [], (c :: key), o, i, rest, W, W'.
        cbn [map concat app frefs fold_right]. split; [reflexivity|]. split; [constructor|]. split; [exact Hk|]. split; [exact O1|]. split; [exact I|]. rewrite Z.add_0_r. split; [exact O2|]. split; [split; reflexivity|]. split; [exact O2'|]. split; [exact O3|exact O4].
      + destruct (HA _ _ _ _ _ _ HB1 R1 HW E3) as (t & cm & W1 & r2 & ES & EC & Ht & R2 & _ & T1 & T2 & M1 & HW1).
        apply bind_panic in E4. destruct E4 as [E4|(d3 & u & E5 & E6)]; [discriminate|].
        assert (R3 : d_r d3 = contr r2 e) by (inversion E5; subst; exact R2). assert (T3' : d_ref0 d3 = d_ref0 d2) by (inversion E5; subst; reflexivity). assert (HW2 : relw W1 d3) by (apply (relw_T3 _ d2); [inversion E5; reflexivity|exact HW1]).
        assert (HB2 : is_bytes r2) by (destruct EC as [-> | ->]; [apply cut_none in ES; subst r1; apply is_bytes_split in HB1; apply HB1|constructor]).
        destruct (IH _ _ _ _ _ HB2 R3 HW2 E6) as (fs & k & o & i & rest & W2 & W' & -> & O1 & O2 & O3 & O4 & O5 & M2 & M3 & O6 & O7). rewrite T3', T2, E1 in *.
        assert (EC' : cm = 0%nat) by (destruct EC as [EC|EC]; [exact EC|apply app_eq_nil in EC; destruct EC as [_ EC]; discriminate EC]). subst cm. apply cut_none in ES. subst r1.
        exists ((c :: key, t) :: fs), k, o, i, rest, W2, W'. cbn [map concat fst snd frefs fold_right]. split; [rewrite <- !app_assoc; reflexivity|].
        split; [constructor; [split; [exact Hk|exact Ht]|exact O1]|]. split; [exact O2|]. split; [exact O3|]. split; [split; assumption|].
        rewrite Z.add_assoc. split; [exact O5|]. split; [cbn [chain]; exists 0%nat, W1, 0%nat; repeat split; auto|]. split; [exact M3|]. split; [exact O6|exact O7].
  Qed.
  Lemma object_panicw fuel d s e W : is_bytes s -> d_r d = contr s e -> relw W d -> snd (decode_object0 dec fuel d) = Panic -> in_fieldsw W (rlen d + 1) s.
  Proof.
    intros HB Hr HW E. unfold decode_object0 in E. apply bind_panic in E. destruct E as [E|(d1 & l1 & E1 & E2)]; [discriminate|]. apply bind_panic in E2. destruct E2 as [E|(d2 & u & E2 & E3)]; [discriminate|].
    inversion E1; subst. inversion E2; subst. apply bind_panic in E3. destruct E3 as [E3|(d3 & [] & E3 & E4)]; [|discriminate].
    pose proof (obj_loop_panicw _ _ (set_ref0 _ (set_heap _ d)) s e W HB Hr HW E3) as G. cbn [set_ref0 set_heap d_ref0] in G. rewrite len_app in G. exact G.
  Qed.
  Lemma loop_panicw : forall fuel n d s e W, is_bytes s -> d_r d = contr s e -> relw W d -> snd (loop_n dec fuel n d) = Panic ->
    exists l o i rest W1 W', s = concat (map layout0 l) ++ open_layout o ++ 7 :: be16 i ++ rest /\ len l < n /\ Forall (doc_ok true) l /\ open_ok o /\
      erefs (rlen d) l /\ open_refs (rlen d + eslots l) o /\ chain (map embedded l) W 0 W1 /\ open_embedded o W1 W' /\ 0 <= i < 2 ^ 16 /\ i = rlen d + eslots l + open_slots o.
  Proof.
    induction fuel as [|f IH]; intros n d s e W HB Hr HW E; cbn [loop_n] in E; (destruct (Z.leb_spec n 0); [discriminate|]); [discriminate|].
    apply bind_panic in E. destruct E as [E|(d1 & v & E1 & E2)].
    - destruct (HP _ _ _ _ HB Hr HW E) as (o & i & rest & W' & -> & O1 & O2 & O2' & O3 & O4). exists [], o, i, rest, W, W'. cbn [map concat app erefs fold_right]. rewrite Z.add_0_r.
      split; [reflexivity|]. split; [unfold len; cbn [length]; lia|]. split; [constructor|]. split; [exact O1|]. split; [exact I|]. split; [exact O2|]. split; [split; reflexivity|]. split; [exact O2'|]. split; [exact O3|exact O4].
    - destruct (HA _ _ _ _ _ _ HB Hr HW E1) as (t & cm & W1 & r1 & ES & EC & Ht & R1 & _ & T1 & T2 & M1 & HW1).
      assert (HB1 : is_bytes r1) by (destruct EC as [-> | ->]; [apply cut_none in ES; subst s; apply is_bytes_split in HB; apply HB|constructor]).
      apply bind_panic in E2. destruct E2 as [E2|(d2 & l & E2 & E3)]; [|discriminate].
      destruct (IH _ _ _ _ _ HB1 R1 HW1 E2) as (l & o & i & rest & W2 & W' & -> & O1 & O2 & O3 & O4 & O5 & M2 & M3 & O6 & O7). rewrite T2 in *.
      assert (EC' : cm = 0%nat) by (destruct EC as [EC|EC]; [exact EC|apply app_eq_nil in EC; destruct EC as [_ EC]; apply app_eq_nil in EC; destruct EC as [_ EC]; discriminate EC]). subst cm. apply cut_none in ES. subst s.
      exists (t :: l), o, i, rest, W2, W'. cbn [map concat erefs fold_right]. rewrite <- !app_assoc, Z.add_assoc, len_cons. split; [reflexivity|]. split; [lia|]. split; [constructor; assumption|]. split; [exact O3|]. split; [split; assumption|]. split; [exact O5|].
      split; [cbn [chain]; exists 0%nat, W1, 0%nat; repeat split; auto|]. split; [exact M3|]. split; [exact O6|exact O7].
  Qed.
End Pan.

Theorem dec0_panw : forall fuel, panw (dec0 fuel).
Proof.
  induction fuel as [|f IH]; intros d s e W HB Hr HW E; cbn [dec0] in E; [discriminate|].
  npstep np_byte E d1 m E1 E0. destruct (read_byte_inv _ _ _ _ _ Hr E1) as (s1 & -> & R1). rename E0 into E. carry HW E1.
  assert (HB1 : is_bytes s1) by (inversion HB; assumption). apply (kr_ok _ _ _ _ kr_byte) in E1.
  destruct (Z.eqb_spec m 0) as [->|_]; [npstep (np_read_be 8 ltac:(lia)) E d2 b E2 E3; discriminate|].
  destruct (Z.eqb_spec m 1) as [->|_]; [npstep np_byte E d2 b E2 E3; discriminate|].
  destruct (Z.eqb_spec m 2) as [->|_]; [npstep np_string0 E d2 b E2 E3; discriminate|].
  destruct (Z.eqb_spec m 3) as [->|_].
  { apply bind_panic in E. destruct E as [E|(d2 & b & _ & E)]; [|discriminate].
    destruct (object_panicw _ (dec0_accw f) IH _ _ _ _ _ HB1 R1 HW E) as (fs & k & o & i & rest & W1 & W' & -> & O1 & O2 & O3 & O4 & O5 & M1 & M2 & O6 & O7). rewrite E1 in *.
    exists (O_object fs k o), i, rest, W'. cbn [open_layout open_ok open_refs open_slots open_embedded slots app]. rewrite refs_object, <- !app_assoc, Z.add_assoc. repeat (split; [first [reflexivity|assumption|exact (conj O1 (conj O2 O3))|exact (conj O4 O5)|exists W1; split; assumption]|]). lia. }
  destruct (Z.eqb_spec m 4) as [->|_]; [discriminate|].
  destruct (Z.eqb_spec m 5) as [->|_]; [discriminate|].
  destruct (Z.eqb_spec m 6) as [->|_]; [discriminate|].
  destruct (Z.eqb_spec m 13) as [->|_]; [discriminate|]. cbn [orb] in E.
  destruct (Z.eqb_spec m 7) as [->|_].
  { npstep (np_read_be 2 ltac:(lia)) E d2 b E2 E3. destruct (read_be_inv 2 _ _ _ _ _ ltac:(lia) R1 E2) as (a & rest & -> & L & -> & R2).
    apply is_bytes_split in HB1. destruct (be16_inv a (proj1 HB1) L) as [Ea Ra]. destruct (Z.ltb_spec (len (d_ref0 d2)) (be_val a)); [discriminate|]. destruct (Z.eqb_spec (be_val a) (len (d_ref0 d2))); [|discriminate].
    apply (kr_ok _ _ _ _ (kr_read_be 2)) in E2. rewrite E2, E1 in *. exists O_here, (be_val a), rest, W. cbn [open_layout open_ok open_refs open_slots open_embedded app]. rewrite <- Ea. repeat (split; [first [reflexivity|exact I|assumption]|]). lia. }
  destruct (Z.eqb_spec m 8) as [->|_].
  { unfold decode_ecma0 in E. npstep (np_read_be 4 ltac:(lia)) E d2 n E2 E3. destruct (read_be_inv 4 _ _ _ _ _ ltac:(lia) R1 E2) as (a & r2 & -> & L & -> & R2). carry HW E2.
    apply is_bytes_split in HB1. destruct HB1 as [HBa HB1]. destruct (be32_inv a HBa L) as [Ea Ra]. apply (kr_ok _ _ _ _ (kr_read_be 4)) in E2. apply bind_panic in E3. destruct E3 as [E3|(d3 & loc & _ & E4)]; [|discriminate].
    destruct (object_panicw _ (dec0_accw f) IH _ _ _ _ _ HB1 R2 HW E3) as (fs & k & o & i & rest & W1 & W' & -> & O1 & O2 & O3 & O4 & O5 & M1 & M2 & O6 & O7). rewrite E2, E1 in *.
    exists (O_ecma (be_val a) fs k o), i, rest, W'. cbn [open_layout open_ok open_refs open_slots open_embedded slots app]. rewrite <- Ea, refs_object, <- !app_assoc, Z.add_assoc. repeat (split; [first [reflexivity|assumption|exact (conj Ra (conj O1 (conj O2 O3)))|exact (conj O4 O5)|exists W1; split; assumption]|]). lia. }
  destruct (Z.eqb_spec m 10) as [->|_].
  { unfold decode_strict0 in E. npstep (np_read_be 4 ltac:(lia)) E d2 n E2 E3. destruct (read_be_inv 4 _ _ _ _ _ ltac:(lia) R1 E2) as (a & r2 & -> & L & -> & R2). carry HW E2.
    apply is_bytes_split in HB1. destruct HB1 as [HBa HB1]. destruct (be32_inv a HBa L) as [Ea Ra]. apply (kr_ok _ _ _ _ (kr_read_be 4)) in E2. apply bind_panic in E3. destruct E3 as [E3|(d3 & u & E3 & E4)]; [discriminate|]. inversion E3; subst.
    apply bind_panic in E4. destruct E4 as [E4|(d4 & l & E4 & E5)]; [|discriminate].
    destruct (loop_panicw _ (dec0_accw f) IH _ _ (set_ref0 (d_ref0 d2 ++ [VArr []]) d2) r2 e W HB1 R2 HW E4) as (l & o & i & rest & W1 & W' & -> & O1 & O2 & O3 & O4 & O5 & M1 & M2 & O6 & O7).
    cbn [set_ref0 d_ref0] in *. rewrite len_app in *. change (len [VArr []]) with 1 in *. rewrite E2, E1 in *.
    exists (O_strict (be_val a) l o), i, rest, W'. cbn [open_layout open_ok open_refs open_slots open_embedded slots app]. rewrite <- Ea, refs_strict, <- !app_assoc, Z.add_assoc. repeat (split; [first [reflexivity|assumption|exact (conj (conj O1 (proj2 Ra)) (conj O2 O3))|exact (conj O4 O5)|exists W1; split; assumption]|]). lia. }
  destruct (Z.eqb_spec m 11) as [->|_]; [unfold decode_date0 in E; npstep (np_read_be 8 ltac:(lia)) E d2 b E2 E3; npstep (np_read_bytes 2) E3 d3 z E4 E5; discriminate|].
  destruct (Z.eqb_spec m 12) as [->|_]; [npstep np_longstring0 E d2 b E2 E3; discriminate|].
  destruct (Z.eqb_spec m 14) as [->|_]; [discriminate|].
  destruct (Z.eqb_spec m 15) as [->|_]; [npstep np_longstring0 E d2 b E2 E3; discriminate|].
  destruct (Z.eqb_spec m 16) as [->|_].
  { unfold decode_typed0 in E. apply bind_panic in E. destruct E as [E|(d2 & u & E2 & E3)]; [discriminate|]. inversion E2; subst.
    npstep np_string0 E3 d3 ty E3 E4. destruct (string_inv (set_ref0 (d_ref0 d1 ++ [VTyped [] None]) d1) s1 e _ _ HB1 R1 E3) as (r2 & -> & L & R2 & _). apply is_bytes_split in HB1. destruct HB1 as [_ HB1].
    assert (HW1 : relw W (set_ref0 (d_ref0 d1 ++ [VTyped [] None]) d1)) by exact HW. carry HW1 E3.
    apply (kr_ok _ _ _ _ kr_string0) in E3. apply bind_panic in E4. destruct E4 as [E4|(d4 & loc & _ & E4)]; [|discriminate].
    destruct (object_panicw _ (dec0_accw f) IH _ _ _ _ _ HB1 R2 HW1 E4) as (fs & k & o & i & rest & W1 & W' & -> & O1 & O2 & O3 & O4 & O5 & M1 & M2 & O6 & O7). rewrite E3 in *. cbn [set_ref0 d_ref0] in *. rewrite len_app in *. change (len [VTyped [] None]) with 1 in *. rewrite E1 in *.
    exists (O_typed ty fs k o), i, rest, W'. cbn [open_layout open_ok open_refs open_slots open_embedded slots app]. rewrite refs_typed, <- !app_assoc, Z.add_assoc. replace (rlen d + 1 + 1) with (rlen d + 2) in * by lia. repeat (split; [first [reflexivity|assumption|exact (conj L (conj O1 (conj O2 O3)))|exact (conj O4 O5)|exists W1; split; assumption]|]). lia. }
  destruct (Z.eqb_spec m 17) as [->|_]; [|discriminate].
  exfalso. exact (np_dec3 f d1 E).
Qed.

Lemma RTW_fields fs : Forall (fun p : bytes * doc0 => RTW (snd p)) fs. Proof. apply Forall_forall. intros p _. apply dec0_refsw. Qed.
Lemma RTW_all l : Forall RTW l. Proof. apply Forall_forall. intros p _. apply dec0_refsw. Qed.
Section Cut.
  Variable o : open0.
  Variables (i : Z) (rest : bytes).
  Notation tail := (open_layout o ++ 7 :: be16 i ++ rest).
  Hypothesis HO : forall fuel d e W W', open_refs (rlen d) o -> open_embedded o W W' -> relw W d -> (length (open_layout o) + 1 < fuel)%nat -> i = rlen d + open_slots o -> d_r d = contr tail e -> snd (dec0 fuel d) = Panic.
  Lemma object_cutw fs k : Forall fok fs -> 0 < len k <= 65535 -> forall fuel n d e W W1 W', frefs (rlen d + 1) fs -> open_refs (rlen d + 1 + fslots fs) o -> chain (femb fs) W 0 W1 -> open_embedded o W1 W' -> relw W d ->
    (length (layout_fields fs) + length (open_layout o) + 1 < fuel)%nat -> (length fs < n)%nat -> i = rlen d + 1 + fslots fs + open_slots o ->
    d_r d = contr (layout_fields fs ++ wire_utf8 k ++ tail) e -> snd (decode_object0 (dec0 fuel) n d) = Panic.
  Proof.
    intros Hg Hk fuel n d e W W1 W' HF HR M1 M2 HW Hf Hn Hi Hr. unfold decode_object0. erewrite dbind_ok by reflexivity. erewrite dbind_ok by reflexivity. set (d1 := set_ref0 _ _).
    assert (L1 : rlen d1 = rlen d + 1) by (unfold d1; cbn [set_ref0 set_heap d_ref0]; rewrite len_app; reflexivity). apply snd_dbind.
    destruct (fields_prefixw fs (RTW_fields fs) Hg fuel n (length (d_heap d)) d1 W W1 (wire_utf8 k ++ tail) e) as (d2 & E & R & T & HW1); [rewrite L1; exact HF|exact M1|exact HW|discriminate|lia|exact Hn|exact Hr|].
    rewrite E. destruct (n - length fs)%nat as [|n2] eqn:E2; [lia|]. cbn [obj_loop].
    assert (Hkne : k <> []) by (intros ->; unfold len in Hk; cbn [length] in Hk; lia).
    erewrite dbind_ok by (apply decode_string0_contr; [exact R|lia|left; exact Hkne]). destruct k as [|c k]; [congruence|]. apply snd_dbind.
    apply (HO fuel _ e W1 W'); cbn [set_r d_ref0 d_r]; [rewrite T, L1; exact HR|exact M2|exact HW1|lia|rewrite T, L1; lia|reflexivity].
  Qed.
End Cut.
Theorem dec0_cutw : forall o i rest, 0 <= i < 2 ^ 16 -> open_ok o -> forall fuel d e W W', open_refs (rlen d) o -> open_embedded o W W' -> relw W d -> (length (open_layout o) + 1 < fuel)%nat ->
  i = rlen d + open_slots o -> d_r d = contr (open_layout o ++ 7 :: be16 i ++ rest) e -> snd (dec0 fuel d) = Panic.
Proof.
  intros o i rest Hi. change (2 ^ 16) with 65536 in Hi. induction o as [|fs k o IH|n fs k o IH|n l o IH|ty fs k o IH]; intros Hok [|fuel] d e W W' HR HM HW Hf Ei Hr; try (exfalso; lia); cbn [open_layout open_ok open_embedded open_refs open_slots slots app] in *.
  - step0 Hr. unfold decode_reference0. erewrite dbind_ok by (change 2 with (len (be16 i)); eapply read_be_contr; [reflexivity|reflexivity]). rewrite be_val_be16, Z.mod_small by lia. cbn [d_ref0 set_r].
    destruct (Z.ltb_spec (rlen d) i); [lia|]. destruct (Z.eqb_spec i (rlen d)); [reflexivity|lia].
  - destruct Hok as (H1 & H2 & H3). destruct HM as (W1 & M1 & M2). destruct HR as [F1 F2]. specialize (IH H3).
    fold (layout_fields fs) in Hf, Hr. cbn [length] in Hf. rewrite !app_length in Hf. rewrite <- !app_assoc in Hr. pose proof (layout_fields_length fs) as Hwl.
    step0 Hr. apply snd_dbind. apply (object_cutw o i rest IH fs k H1 H2 _ _ _ e W W1 W'); cbn [set_r d_ref0 d_r]; [exact F1|rewrite <- Z.add_assoc; exact F2|exact M1|exact M2|exact HW|lia|lia|lia|reflexivity].
  - destruct Hok as (Hn & H1 & H2 & H3). destruct HM as (W1 & M1 & M2). destruct HR as [F1 F2]. specialize (IH H3).
    fold (layout_fields fs) in Hf, Hr. cbn [length be32] in Hf. rewrite !app_length in Hf. rewrite <- !app_assoc in Hr. pose proof (layout_fields_length fs) as Hwl.
    step0 Hr. unfold decode_ecma0. erewrite dbind_ok by (change 4 with (len (be32 n)); eapply read_be_contr; [reflexivity|reflexivity]).
    apply snd_dbind. apply (object_cutw o i rest IH fs k H1 H2 _ _ _ e W W1 W'); cbn [set_r d_ref0 d_r]; [exact F1|rewrite <- Z.add_assoc; exact F2|exact M1|exact M2|exact HW|lia|lia|lia|reflexivity].
  - destruct Hok as (Hn & H1 & H3). destruct HM as (W1 & M1 & M2). destruct HR as [F1 F2]. specialize (IH H3). change (2 ^ 32) with 4294967296 in Hn. pose proof (len_nonneg l) as Hl0.
    cbn [length be32] in Hf. rewrite !app_length in Hf. rewrite <- !app_assoc in Hr. pose proof (concat_layout_length l) as Hcl. cbn [length] in Hf.
    step0 Hr. unfold decode_strict0. erewrite dbind_ok by (change 4 with (len (be32 n)); eapply read_be_contr; [reflexivity|reflexivity]).
    rewrite be_val_be32, Z.mod_small by lia. erewrite dbind_ok by reflexivity. apply snd_dbind. set (d1 := set_ref0 _ _).
    assert (L1 : rlen d1 = rlen d + 1) by (unfold d1; cbn [set_r set_ref0 d_ref0]; rewrite len_app; reflexivity).
    destruct (elems_prefixw l (RTW_all l) H1 fuel fuel n d1 (concat (map layout0 l) ++ open_layout o ++ 7 :: be16 i ++ rest) 0%nat W W1 (open_layout o ++ 7 :: be16 i ++ rest) e) as (d' & vs & R & T & HW1 & E); [rewrite L1; exact F1|exact M1|exact HW|left; intros X; apply app_eq_nil in X; destruct X; discriminate|lia|lia|lia|apply app_nil_r|left; reflexivity|reflexivity|].
    rewrite E. assert (EP : snd (loop_n (dec0 fuel) (fuel - length l) (n - len l) d') = Panic).
    { destruct (fuel - length l)%nat as [|f2] eqn:E2; [lia|]. cbn [loop_n]. destruct (Z.leb_spec (n - len l) 0); [lia|]. apply snd_dbind. apply (IH _ _ e W1 W'); [rewrite T, L1, <- Z.add_assoc; exact F2|exact M2|exact HW1|lia|rewrite T, L1; lia|exact R]. }
    destruct (loop_n (dec0 fuel) (fuel - length l) (n - len l) d') as [d2 [ws|x| |]]; cbn [snd] in *; try discriminate. reflexivity.
  - destruct Hok as (Ht & H1 & H2 & H3). destruct HM as (W1 & M1 & M2). destruct HR as [F1 F2]. specialize (IH H3).
    fold (layout_fields fs) in Hf, Hr. cbn [length] in Hf. rewrite !app_length in Hf. rewrite <- !app_assoc in Hr. pose proof (layout_fields_length fs) as Hwl.
    step0 Hr. unfold decode_typed0. erewrite dbind_ok by reflexivity.
    erewrite dbind_ok by (eapply decode_string0_contr; [reflexivity|exact Ht|right; left; intros X; apply app_eq_nil in X; destruct X as [_ X]; apply app_eq_nil in X; destruct X; discriminate]).
    apply snd_dbind. set (d1 := set_r _ _). assert (L1 : rlen d1 = rlen d + 1) by (unfold d1; cbn [set_r set_ref0 d_ref0]; rewrite len_app; reflexivity).
    rewrite refs_typed in F1. replace (rlen d + 2) with (rlen d + 1 + 1) in F1 by lia. replace (rlen d + (2 + fslots fs)) with (rlen d + 1 + 1 + fslots fs) in F2 by lia.
    apply (object_cutw o i rest IH fs k H1 H2 _ _ _ e W W1 W'); rewrite ?L1; [exact F1|exact F2|exact M1|exact M2|exact HW|lia|lia|lia|reflexivity].
Qed.
