(** What a successful AMF decoding from a chunked reader is the decoding of: the chunks, zero-padded where a short read went unnoticed (Spec/AmfPad.v). *)
From Coq Require Import String.
From Verif Require Import Base.Go Base.GoFacts Base.IO Base.Float64 Proofs.Float64 Proofs.IOFacts
  Model.AmfTypes Model.Amf3 Model.Amf0 Spec.Amf Spec.Amf3Doc Spec.AmfPad Proofs.AmfFacts Proofs.Amf0Enc Proofs.Amf0RT Proofs.AmfTerm Proofs.Amf3Enc Proofs.Amf3RT Proofs.Amf3Doc.
Local Ltac Zify.zify_post_hook ::= Z.div_mod_to_equations.

Lemma padded_refl z cs : padded z cs (concat cs).
Proof. induction cs as [|c cs IH]; [constructor|]. exact (padded_cons z c 0 cs _ (fun _ => eq_refl) IH). Qed.
Lemma padded_false cs s : padded false cs s -> s = concat cs.
Proof. induction 1 as [|c k cs s K _ IH]; [reflexivity|]. rewrite (K eq_refl), IH. reflexivity. Qed.
Lemma padded_length z cs s : padded z cs s -> (length (concat cs) <= length s)%nat.
Proof. induction 1 as [|c k cs s K _ IH]; [reflexivity|]. cbn [concat]. rewrite !app_length. lia. Qed.

(** Inputs on which no XML document and no byte array can start. *)
Definition no_blob (s : bytes) : Prop := ~ In 7 s /\ ~ In 11 s /\ ~ In 12 s.
Definition rest_of (d : dstate) : bytes := r_rest (d_r d).

Section Sim.
  (** [R]: the readers the two runs are at; [z]: XML documents and byte arrays are allowed. *)
  Variable R : reader -> reader -> Prop.
  Variable z : bool.
  Definition okz (d : dstate) : Prop := z = false -> no_blob (rest_of d).

  Definition sim {A} (m m' : Dm A) : Prop := forall d d' a, okz d -> m d = (d', Ok a) ->
    incl (rest_of d') (rest_of d) /\
    forall s2, R (d_r d') s2 -> exists s1, R (d_r d) s1 /\ m' (set_r s1 d) = (set_r s2 d', Ok a).

  Lemma okz_incl d d' : incl (rest_of d') (rest_of d) -> okz d -> okz d'.
  Proof. intros I O E. destruct (O E) as (A & B & C). split; [|split]; intros X; [apply A|apply B|apply C]; apply I, X. Qed.

  Lemma sim_bind {A B} (m m' : Dm A) (k k' : A -> Dm B) : sim m m' -> (forall a, sim (k a) (k' a)) -> sim (dbind m k) (dbind m' k').
  Proof.
    intros Hm Hk d d' b O E. unfold dbind in *. destruct (m d) as [d1 [a|e| |]] eqn:E1; try discriminate.
    destruct (Hm _ _ _ O E1) as [I1 S1]. destruct (Hk a _ _ _ (okz_incl _ _ I1 O) E) as [I2 S2].
    split; [eapply incl_tran; eassumption|]. intros s3 P3. destruct (S2 _ P3) as (s2 & P2 & R2).
    destruct (S1 _ P2) as (s1 & P1 & R1). exists s1. split; [exact P1|]. rewrite R1. exact R2.
  Qed.
  Lemma sim_ret {A} (a : A) : sim (dret a) (dret a).
  Proof. intros d d' b O E. injection E as <- <-. split; [apply incl_refl|]. intros s2 P. exists s2. split; [exact P|reflexivity]. Qed.
  Lemma sim_fail {A} e (m' : Dm A) : sim (dfail e) m'.
  Proof. intros d d' b O E. discriminate. Qed.
  Lemma sim_fuel {A} (m' : Dm A) : sim (fun d => (d, OutOfFuel)) m'.
  Proof. intros d d' b O E. discriminate. Qed.
  Lemma sim_state {A} (m : Dm A) : (forall d r, m (set_r r d) = (set_r r (fst (m d)), snd (m d))) -> (forall d, d_r (fst (m d)) = d_r d) -> sim m m.
  Proof.
    intros H H2 d d' a O E. specialize (H2 d). rewrite E in H2. cbn [fst] in H2. unfold rest_of. rewrite H2. split; [apply incl_refl|].
    intros s2 P. exists s2. split; [exact P|]. rewrite H, E. reflexivity.
  Qed.

  Lemma suffix_incl (a b c : bytes) : a = b ++ c -> incl c a.
  Proof. intros ->. apply incl_appr, incl_refl. Qed.

  Hypothesis sim_read_bytes : forall n, sim (read_bytes n) (read_bytes n).
  Hypothesis sim_read_be : forall n, 0 < n -> sim (read_be n) (read_be n).
  Hypothesis sim_read_into : forall n, 0 <= n -> z = true -> sim (read_into n) (read_into n).

  Lemma sim_alloc : sim alloc alloc. Proof. apply sim_state; reflexivity. Qed.
  Lemma sim_obj_set l k v : sim (obj_set l k v) (obj_set l k v). Proof. apply sim_state; reflexivity. Qed.
  Lemma sim_ref0_push v : sim (ref0_push v) (ref0_push v). Proof. apply sim_state; reflexivity. Qed.
  Lemma sim_obj3_push v : sim (obj3_push v) (obj3_push v). Proof. apply sim_state; reflexivity. Qed.
  Lemma sim_obj3_ref v : sim (obj3_ref v) (obj3_ref v).
  Proof. apply sim_state; intros; unfold obj3_ref; cbn [set_r d_obj3]; destruct (len (d_obj3 d) <=? v); reflexivity. Qed.
  Lemma sim_read_byte : sim read_byte read_byte.
  Proof. unfold read_byte. apply sim_bind; [apply sim_read_bytes|]. intros; apply sim_ret. Qed.
  Lemma sim_u29 : sim read_u29 read_u29.
  Proof.
    unfold read_u29. apply sim_bind; [apply sim_read_byte|]. intros b1. cbv zeta. destruct (Z.land b1 128 =? 0); [apply sim_ret|].
    apply sim_bind; [apply sim_read_byte|]. intros b2. destruct (Z.land b2 128 =? 0); [apply sim_ret|].
    apply sim_bind; [apply sim_read_byte|]. intros b3. destruct (Z.land b3 128 =? 0); [apply sim_ret|].
    apply sim_bind; [apply sim_read_byte|]. intros; apply sim_ret.
  Qed.
  Lemma sim_du29 : sim decode_u29 decode_u29.
  Proof. unfold decode_u29. apply sim_bind; [apply sim_u29|]. intros; apply sim_ret. Qed.
  Lemma sim_string3 : sim decode_string3 decode_string3.
  Proof.
    unfold decode_string3. apply sim_bind; [apply sim_du29|]. intros [[|] v].
    - apply sim_state; intros; cbn [set_r d_str3]; destruct (len (d_str3 d) <=? v); reflexivity.
    - destruct (v =? 0); [apply sim_ret|]. apply sim_bind; [apply sim_read_bytes|]. intros. apply sim_state; reflexivity.
  Qed.
  Lemma sim_date3 : sim decode_date3 decode_date3.
  Proof.
    unfold decode_date3. apply sim_bind; [apply sim_du29|]. intros [[|] v].
    - apply sim_bind; [apply sim_obj3_ref|]. intros []; try apply sim_fail. apply sim_ret.
    - apply sim_bind; [|intros; apply sim_bind; [apply sim_obj3_push|intros; apply sim_ret]].
      intros d d' a O E. destruct (read_be 8 d) as [d1 [x|e| |]] eqn:RE; try discriminate. injection E as <- <-.
      destruct (sim_read_be 8 ltac:(lia) _ _ _ O RE) as [I S]. split; [exact I|]. intros s2 P. destruct (S _ P) as (s1 & P1 & E1).
      exists s1. split; [exact P1|]. rewrite E1. reflexivity.
  Qed.
  Lemma sim_bind_post {A B} (m m' : Dm A) (k k' : A -> Dm B) (Q : A -> Prop) : sim m m' -> (forall d d' a, m d = (d', Ok a) -> Q a) ->
    (forall a, Q a -> sim (k a) (k' a)) -> sim (dbind m k) (dbind m' k').
  Proof.
    intros Hm HQ Hk d d' b O E. unfold dbind in *. destruct (m d) as [d1 [a|e| |]] eqn:E1; try discriminate.
    destruct (Hm _ _ _ O E1) as [I1 S1]. destruct (Hk a (HQ _ _ _ E1) _ _ _ (okz_incl _ _ I1 O) E) as [I2 S2].
    split; [eapply incl_tran; eassumption|]. intros s3 P3. destruct (S2 _ P3) as (s2 & P2 & R2).
    destruct (S1 _ P2) as (s1 & P1 & R1). exists s1. split; [exact P1|]. rewrite R1. exact R2.
  Qed.
  Lemma read_u29_nonneg d d' v : read_u29 d = (d', Ok v) -> 0 <= v.
  Proof.
    assert (U : forall x, 0 <= u32 x) by (intros; unfold u32; apply Z.mod_pos_bound; reflexivity).
    unfold read_u29, dbind, dret. intros E.
    repeat match goal with
    | E : context [read_byte ?d] |- _ => destruct (read_byte d) as [? [?|?| |]]; try discriminate
    | E : context [Z.land ?b 128 =? 0] |- _ => destruct (Z.land b 128 =? 0)
    | E : (_, Ok _) = (_, Ok _) |- _ => injection E as <- <-; apply U
    end.
  Qed.
  Lemma du29_nonneg d d' p : decode_u29 d = (d', Ok p) -> 0 <= snd p.
  Proof.
    unfold decode_u29, dbind, dret. destruct (read_u29 d) as [d1 [v|?| |]] eqn:E; try discriminate. intros X. injection X as <- <-.
    apply Z.shiftr_nonneg. eapply read_u29_nonneg, E.
  Qed.
  Lemma sim_xml3 : z = true -> sim decode_xmldoc3 decode_xmldoc3.
  Proof.
    intros Hz. unfold decode_xmldoc3. eapply sim_bind_post; [apply sim_du29|apply du29_nonneg|]. intros [[|] v] Hv; cbn [snd] in Hv.
    - apply sim_bind; [apply sim_obj3_ref|]. intros []; try apply sim_fail. apply sim_ret.
    - destruct (v =? 0); [apply sim_ret|]. apply sim_bind; [apply sim_read_into; assumption|]. intros.
      apply sim_bind; [apply sim_obj3_push|]. intros; apply sim_ret.
  Qed.
  Lemma sim_bytes3 : z = true -> sim decode_bytearray3 decode_bytearray3.
  Proof.
    intros Hz. unfold decode_bytearray3. eapply sim_bind_post; [apply sim_du29|apply du29_nonneg|]. intros [[|] v] Hv; cbn [snd] in Hv.
    - apply sim_bind; [apply sim_obj3_ref|]. intros []; try apply sim_fail. apply sim_ret.
    - destruct (v =? 0); [apply sim_ret|]. apply sim_bind; [apply sim_read_into; assumption|]. intros.
      apply sim_bind; [apply sim_obj3_push|]. intros; apply sim_ret.
  Qed.

  Lemma sim_loop_n {A} (b b' : Dm A) : sim b b' -> forall f f' n, (f <= f')%nat -> sim (loop_n b f n) (loop_n b' f' n).
  Proof.
    intros Hb f. induction f as [|f IH]; intros f' n L.
    - cbn [loop_n]. destruct (n <=? 0) eqn:N; [|apply sim_fuel]. destruct f'; cbn [loop_n]; rewrite N; apply sim_ret.
    - destruct f' as [|f']; [lia|]. cbn [loop_n]. destruct (n <=? 0); [apply sim_ret|].
      apply sim_bind; [exact Hb|]. intros. apply sim_bind; [apply IH; lia|]. intros; apply sim_ret.
  Qed.
  Lemma sim_string0 : sim decode_string0 decode_string0.
  Proof. unfold decode_string0. apply sim_bind; [apply sim_read_be; lia|]. intros; apply sim_read_bytes. Qed.
  Lemma sim_longstring0 : sim decode_longstring0 decode_longstring0.
  Proof. unfold decode_longstring0. apply sim_bind; [apply sim_read_be; lia|]. intros; apply sim_read_bytes. Qed.

  Lemma sim_read_flags f : forall f', (f <= f')%nat -> sim (read_flags f) (read_flags f').
  Proof.
    induction f as [|f IH]; intros [|f'] L; try apply sim_fuel; [lia|]. cbn [read_flags]. apply sim_bind; [apply sim_read_byte|]. intros b.
    destruct (Z.land b 128 =? 0); [apply sim_ret|]. apply sim_bind; [apply IH; lia|]. intros; apply sim_ret.
  Qed.

  Section WithDec.
    Variables dec dec' : Dm value.
    Hypothesis Hdec : sim dec dec'.
    Lemma sim_field loc k : sim (d* v := dec in obj_set loc k v) (d* v := dec' in obj_set loc k v).
    Proof. apply sim_bind; [exact Hdec|]. intros; apply sim_obj_set. Qed.
    Lemma sim_ext_named loc flags names : forall p, sim (ext_named dec loc flags p names) (ext_named dec' loc flags p names).
    Proof.
      induction names as [|n names IH]; intros p; cbn [ext_named]; [apply sim_ret|]. apply sim_bind; [|intros; apply IH].
      destruct (Z.land flags (u8 (2 ^ p)) =? 1); [apply sim_field|apply sim_ret].
    Qed.
    Lemma sim_ext_extra loc i flags js : sim (ext_extra dec loc i flags js) (ext_extra dec' loc i flags js).
    Proof.
      induction js as [|j js IH]; cbn [ext_extra]; [apply sim_ret|]. apply sim_bind; [|intros; apply IH].
      destruct (Z.land (Z.shiftr flags j) 1 =? 1); [apply sim_field|apply sim_ret].
    Qed.
    Lemma sim_ext_flags loc fs : forall i fields, sim (ext_flags dec loc i fields fs) (ext_flags dec' loc i fields fs).
    Proof.
      induction fs as [|fl fs IH]; intros i fields; cbn [ext_flags]; [apply sim_ret|]. cbv zeta.
      apply sim_bind; [apply sim_ext_named|]. intros _. apply sim_bind; [|intros; apply IH].
      match goal with |- context [Z.shiftr fl ?x =? 0] => destruct (Z.shiftr fl x =? 0) end; [apply sim_ret|apply sim_ext_extra].
    Qed.
    Lemma sim_obj_loop loc f : forall f', (f <= f')%nat -> sim (obj_loop dec f loc) (obj_loop dec' f' loc).
    Proof.
      induction f as [|f IH]; intros [|f'] L; try apply sim_fuel; [lia|]. cbn [obj_loop]. apply sim_bind; [apply sim_string0|]. intros [|c k].
      - unfold next_byte_must_be. apply sim_bind; [apply sim_read_byte|]. intros m. destruct (m =? 9); [apply sim_ret|apply sim_fail].
      - apply sim_bind; [exact Hdec|]. intros. apply sim_bind; [apply sim_obj_set|]. intros; apply IH; lia.
    Qed.
    Lemma sim_assoc_loop loc f : forall f' key, (f <= f')%nat -> sim (assoc_loop dec f loc key) (assoc_loop dec' f' loc key).
    Proof.
      induction f as [|f IH]; intros f' [|c k] L; try (destruct f'; cbn [assoc_loop]; apply sim_ret); [apply sim_fuel|].
      destruct f' as [|f']; [lia|]. cbn [assoc_loop]. apply sim_bind; [exact Hdec|]. intros. apply sim_bind; [apply sim_obj_set|]. intros.
      apply sim_bind; [apply sim_string3|]. intros; apply IH; lia.
    Qed.
    Lemma sim_props_loop loc keys : sim (props_loop dec loc keys) (props_loop dec' loc keys).
    Proof.
      induction keys as [|k ks IH]; cbn [props_loop]; [apply sim_ret|]. apply sim_bind; [exact Hdec|]. intros. apply sim_bind; [apply sim_obj_set|]. intros; exact IH.
    Qed.
    Lemma sim_dyn_loop loc f : forall f', (f <= f')%nat -> sim (dyn_loop dec f loc) (dyn_loop dec' f' loc).
    Proof.
      induction f as [|f IH]; intros [|f'] L; try apply sim_fuel; [lia|]. cbn [dyn_loop]. apply sim_bind; [apply sim_string3|]. intros [|c k]; [apply sim_ret|].
      apply sim_bind; [exact Hdec|]. intros. apply sim_bind; [apply sim_obj_set|]. intros; apply IH; lia.
    Qed.

    Variables f f' : nat.
    Hypothesis Hf : (f <= f')%nat.
    Lemma sim_external loc fields : sim (decode_external dec f loc fields) (decode_external dec' f' loc fields).
    Proof. unfold decode_external. apply sim_bind; [apply sim_read_flags, Hf|]. intros; apply sim_ext_flags. Qed.
    Lemma sim_abstract : sim (decode_abstract dec f) (decode_abstract dec' f').
    Proof. unfold decode_abstract. apply sim_bind; [apply sim_alloc|]. intros. apply sim_bind; [apply sim_external|]. intros; apply sim_ret. Qed.
    Lemma sim_async : sim (decode_async dec f) (decode_async dec' f').
    Proof. unfold decode_async. apply sim_bind; [apply sim_abstract|]. intros. apply sim_bind; [apply sim_external|]. intros; apply sim_ret. Qed.
    Lemma sim_ack : sim (decode_ack dec f) (decode_ack dec' f').
    Proof. unfold decode_ack. apply sim_bind; [apply sim_async|]. intros. apply sim_bind; [apply sim_external|]. intros; apply sim_ret. Qed.
    Lemma sim_array3 : sim (decode_array3 dec f) (decode_array3 dec' f').
    Proof.
      unfold decode_array3. apply sim_bind; [apply sim_du29|]. intros [[|] v].
      - apply sim_bind; [apply sim_obj3_ref|]. intros []; try apply sim_fail. apply sim_ret.
      - apply sim_bind; [apply sim_string3|]. intros. apply sim_bind; [apply sim_obj3_push|]. intros. apply sim_bind; [apply sim_alloc|]. intros.
        apply sim_bind; [apply sim_assoc_loop, Hf|]. intros. apply sim_bind; [apply sim_loop_n; [exact Hdec|exact Hf]|]. intros; apply sim_ret.
    Qed.
    Lemma sim_trait v : sim (decode_trait f v) (decode_trait f' v).
    Proof.
      unfold decode_trait. destruct (Z.land v 1 =? 0).
      - apply sim_state; intros; cbv zeta; cbn [set_r d_trait3]; match goal with |- context [if ?c then _ else _] => destruct c end; reflexivity.
      - cbv zeta. apply sim_bind; [apply sim_string3|]. intros. apply sim_bind; [apply sim_loop_n; [apply sim_string3|exact Hf]|]. intros. apply sim_state; reflexivity.
    Qed.
    Lemma sim_externalizable t : sim (decode_externalizable dec f t) (decode_externalizable dec' f' t).
    Proof.
      unfold decode_externalizable. destruct (bytes_eqb _ _). { apply sim_bind; [apply sim_async|]. intros; apply sim_ret. }
      destruct (bytes_eqb _ _). { apply sim_bind; [apply sim_ack|]. intros; apply sim_ret. }
      destruct (bytes_eqb _ _); [|apply sim_fail]. apply sim_bind; [exact Hdec|]. intros. apply sim_bind; [apply sim_obj3_push|]. intros; apply sim_ret.
    Qed.
    Lemma sim_object3 : sim (decode_object3 dec f) (decode_object3 dec' f').
    Proof.
      unfold decode_object3. apply sim_bind; [apply sim_du29|]. intros [[|] v]; [apply sim_obj3_ref|].
      apply sim_bind; [apply sim_trait|]. intros t. apply sim_bind; [apply sim_obj3_push|]. intros. destruct (t_ext t); [apply sim_externalizable|].
      apply sim_bind; [apply sim_alloc|]. intros. apply sim_bind; [apply sim_props_loop|]. intros. apply sim_bind; [|intros; apply sim_ret].
      destruct (t_dyn t); [apply sim_dyn_loop, Hf|apply sim_ret].
    Qed.
    Lemma sim_object0 : sim (decode_object0 dec f) (decode_object0 dec' f').
    Proof.
      unfold decode_object0. apply sim_bind; [apply sim_alloc|]. intros. apply sim_bind; [apply sim_ref0_push|]. intros.
      apply sim_bind; [apply sim_obj_loop, Hf|]. intros; apply sim_ret.
    Qed.
  End WithDec.

  (** After the marker byte: XML documents and byte arrays only where short reads are allowed to be padded. *)
  Lemma sim_marker {A} (k k' : Z -> Dm A) : (forall m, (z = false -> m <> 7 /\ m <> 11 /\ m <> 12) -> sim (k m) (k' m)) ->
    sim (dbind read_byte k) (dbind read_byte k').
  Proof.
    intros Hk d d' b O E. unfold dbind in *. destruct (read_byte d) as [d1 [m|e| |]] eqn:E1; try discriminate.
    destruct (sim_read_byte _ _ _ O E1) as [I1 S1].
    assert (Hm : z = false -> m <> 7 /\ m <> 11 /\ m <> 12).
    { intros Hz. destruct (O Hz) as (A1 & A2 & A3). apply read_byte_in in E1. unfold rest_of in *. repeat split; intros ->; contradiction. }
    destruct (Hk m Hm _ _ _ (okz_incl _ _ I1 O) E) as [I2 S2].
    split; [eapply incl_tran; eassumption|]. intros s3 P3. destruct (S2 _ P3) as (s2 & P2 & R2).
    destruct (S1 _ P2) as (s1 & P1 & R1). exists s1. split; [exact P1|]. rewrite R1. exact R2.
  Qed.

  Theorem sim_dec3 f : forall f', (f <= f')%nat -> sim (dec3 f) (dec3 f').
  Proof.
    induction f as [|f IH]; intros [|f'] L; try apply sim_fuel; [lia|]. cbn [dec3]. apply sim_marker. intros m Hm.
    assert (HB : m = 7 \/ m = 11 \/ m = 12 -> z = true). { intros X. destruct z; [reflexivity|]. specialize (Hm eq_refl). lia. }
    destruct ((m =? 0) || (m =? 1)); [apply sim_ret|]. destruct (m =? 2); [apply sim_ret|]. destruct (m =? 3); [apply sim_ret|].
    destruct (m =? 4); [apply sim_bind; [apply sim_u29|intros; apply sim_ret]|].
    destruct (m =? 5); [apply sim_bind; [apply sim_read_be; lia|intros; apply sim_ret]|].
    destruct (m =? 6); [apply sim_bind; [apply sim_string3|intros; apply sim_ret]|].
    destruct (m =? 7) eqn:M7; [apply sim_xml3, HB; lia|]. destruct (m =? 8); [apply sim_date3|].
    destruct (m =? 9); [apply sim_array3; [apply IH|]; lia|]. destruct (m =? 10); [apply sim_object3; [apply IH|]; lia|].
    destruct (m =? 11) eqn:M11; [apply sim_xml3, HB; lia|]. destruct (m =? 12) eqn:M12; [apply sim_bytes3, HB; lia|]. apply sim_fail.
  Qed.
  Theorem sim_dec0 f : forall f', (f <= f')%nat -> sim (dec0 f) (dec0 f').
  Proof.
    induction f as [|f IH]; intros [|f'] L; try apply sim_fuel; [lia|]. cbn [dec0]. apply sim_bind; [apply sim_read_byte|]. intros m.
    assert (IH' : sim (dec0 f) (dec0 f')) by (apply IH; lia). assert (L' : (f <= f')%nat) by lia.
    destruct (m =? 0); [apply sim_bind; [apply sim_read_be; lia|intros; apply sim_ret]|].
    destruct (m =? 1); [apply sim_bind; [apply sim_read_byte|intros; apply sim_ret]|].
    destruct (m =? 2); [apply sim_bind; [apply sim_string0|intros; apply sim_ret]|].
    destruct (m =? 3); [apply sim_bind; [apply sim_object0; assumption|intros; apply sim_ret]|]. destruct (m =? 4); [apply sim_fail|].
    destruct ((m =? 5) || (m =? 6) || (m =? 13)); [apply sim_ret|].
    destruct (m =? 7).
    { unfold decode_reference0. apply sim_bind; [apply sim_read_be; lia|]. intros i. apply sim_state; intros; cbn [set_r d_ref0];
        destruct (len (d_ref0 d) <? i), (i =? len (d_ref0 d)); reflexivity. }
    destruct (m =? 8).
    { unfold decode_ecma0. apply sim_bind; [apply sim_read_be; lia|]. intros. apply sim_bind; [apply sim_object0; assumption|]. intros; apply sim_ret. }
    destruct (m =? 10).
    { unfold decode_strict0. apply sim_bind; [apply sim_read_be; lia|]. intros. apply sim_bind; [apply sim_ref0_push|]. intros.
      apply sim_bind; [apply sim_loop_n; assumption|]. intros; apply sim_ret. }
    destruct (m =? 11).
    { unfold decode_date0. apply sim_bind; [apply sim_read_be; lia|]. intros. apply sim_bind; [apply sim_read_bytes|]. intros; apply sim_ret. }
    destruct (m =? 12); [apply sim_bind; [apply sim_longstring0|intros; apply sim_ret]|]. destruct (m =? 14); [apply sim_fail|].
    destruct (m =? 15); [apply sim_bind; [apply sim_longstring0|intros; apply sim_ret]|].
    destruct (m =? 16).
    { unfold decode_typed0. apply sim_bind; [apply sim_ref0_push|]. intros. apply sim_bind; [apply sim_string0|]. intros.
      apply sim_bind; [apply sim_object0; assumption|]. intros; apply sim_ret. }
    destruct (m =? 17); [apply sim_dec3; lia|apply sim_fail].
  Qed.
End Sim.

(** ** More fuel, same result *)
Definition same (A : Type) (m : Dm A) : Prop := sim eq true m m.
Lemma set_r_id d : set_r (d_r d) d = d.
Proof. destruct d; reflexivity. Qed.
Lemma same_reads {A} (m : Dm A) : (forall d d' a, m d = (d', Ok a) -> incl (rest_of d') (rest_of d)) -> sim eq true m m.
Proof. intros H d d' a _ E. split; [eapply H, E|]. intros s2 <-. exists (d_r d). rewrite !set_r_id. split; [reflexivity|exact E]. Qed.
Lemma same_bytes n : sim eq true (read_bytes n) (read_bytes n).
Proof.
  apply same_reads. intros d d' s E. unfold read_bytes in E. destruct (read_rest n (d_r d)) as (p & Hp & _).
  destruct (read n (d_r d)) as [r' [x|e| |]]; try discriminate; injection E as <- _; eapply suffix_incl, Hp.
Qed.
Lemma same_be n : 0 < n -> sim eq true (read_be n) (read_be n).
Proof.
  intros Hn. apply same_reads. intros d d' s E. unfold read_be, read_full in E.
  destruct (read_full_chunks_rest (r_chunks (d_r d)) (e_err (r_end (d_r d))) n []) as ((p & Hp & Hs) & _ & _).
  destruct (read_full_chunks (e_err (r_end (d_r d))) n [] (r_chunks (d_r d))) as [cs' [x|e| |]]; try discriminate. injection E as <- _. eapply suffix_incl, Hp.
Qed.
Lemma same_into n : 0 <= n -> true = true -> sim eq true (read_into n) (read_into n).
Proof.
  intros _ _. apply same_reads. intros d d' s E. unfold read_into in E. destruct (read_rest n (d_r d)) as (p & Hp & _).
  destruct (read n (d_r d)) as [r' [x|e| |]]; try discriminate; injection E as <- _; eapply suffix_incl, Hp.
Qed.
Lemma same_run {A} (m m' : Dm A) d d' a : sim eq true m m' -> m d = (d', Ok a) -> m' d = (d', Ok a).
Proof.
  intros S E. destruct (S d d' a ltac:(intros X; discriminate) E) as [_ S2]. destruct (S2 _ eq_refl) as (s1 & <- & E1).
  rewrite !set_r_id in E1. exact E1.
Qed.
Lemma dec3_more f f' d d' a : (f <= f')%nat -> dec3 f d = (d', Ok a) -> dec3 f' d = (d', Ok a).
Proof. intros L. apply same_run, sim_dec3; auto using same_bytes, same_be, same_into. Qed.
Lemma dec0_more f f' d d' a : (f <= f')%nat -> dec0 f d = (d', Ok a) -> dec0 f' d = (d', Ok a).
Proof. intros L. apply same_run, sim_dec0; auto using same_bytes, same_be, same_into. Qed.

(** ** Chunks, padded *)
Section Pad.
  Variable z : bool.
  Definition Rpad (r r' : reader) : Prop := exists s, padded z (r_chunks r) s /\ r' = contr s false.
  Definition psim {A} (m : Dm A) : Prop := forall d d' a, m d = (d', Ok a) -> incl (rest_of d') (rest_of d) /\
    forall s2, padded z (r_chunks (d_r d')) s2 -> exists s1, padded z (r_chunks (d_r d)) s1 /\
      m (set_r (contr s1 false) d) = (set_r (contr s2 false) d', Ok a).
  Lemma psim_sim {A} (m : Dm A) : psim m -> sim Rpad z m m.
  Proof.
    intros H d d' a _ E. destruct (H _ _ _ E) as [I S]. split; [exact I|]. intros r2 (s2 & P2 & ->). destruct (S _ P2) as (s1 & P1 & E1).
    exists (contr s1 false). split; [exists s1; auto|exact E1].
  Qed.

  (** A Read call that delivers [s]: the input, with the rest of it padded, starts with [s]. *)
  Lemma read_pre n r r' s : read n r = (r', Ok s) -> 0 <= n -> incl (r_rest r') (r_rest r) /\ len s <= n /\
    (forall s2, padded z (r_chunks r') s2 -> padded z (r_chunks r) (s ++ s2)) /\
    (len s < n -> forall k s2, (z = false -> k = O) -> padded z (r_chunks r') s2 -> padded z (r_chunks r) (s ++ repeat 0 k ++ s2)).
  Proof.
    intros E Hn. destruct (read_rest n r) as (p & Hp & Hs & _). rewrite E in Hp, Hs. cbn [fst snd] in *.
    split; [eapply suffix_incl; exact Hp|]. clear p Hp Hs. unfold read in E. destruct (r_chunks r) as [|c cs] eqn:Ec.
    - destruct (n =? 0) eqn:N; cbn [andb] in E; [|discriminate]. destruct (negb (e_zero (r_end r))); [|discriminate]. injection E as <- <-.
      rewrite Ec. split; [unfold len; cbn; lia|]. split; [intros s2 P; exact P|]. unfold len; cbn [length]; lia.
    - destruct (n =? 0) eqn:N. { injection E as <- <-. rewrite Ec. split; [unfold len; cbn; lia|]. split; [intros s2 P; exact P|]. unfold len; cbn [length]; lia. }
      destruct (len c <=? n) eqn:L.
      + assert (r_chunks r' = cs /\ s = c) as [Rc ->].
        { destruct cs as [|c2 cs]; [destruct (r_with r)|]; try discriminate; injection E as <- <-; split; reflexivity. }
        split; [lia|]. rewrite Rc. split.
        * intros s2 P. exact (padded_cons z c 0 cs _ (fun _ => eq_refl) P).
        * intros _ k s2 K P. constructor; assumption.
      + injection E as <- <-. cbn [r_chunks]. rewrite len_take by lia. split; [lia|]. split; [|lia].
        intros s2 P. inversion P as [|c' k cs' s' K P' E1 E2]; subst. rewrite app_assoc, take_drop. constructor; assumption.
  Qed.

  Lemma pad_read_bytes n : psim (read_bytes n).
  Proof.
    intros d d' s E. unfold read_bytes in E. destruct (read n (d_r d)) as [r' [x|e| |]] eqn:R; try discriminate.
    destruct (len x =? n) eqn:L; [|discriminate]. injection E as <- <-. pose proof (len_nonneg x) as Lx.
    destruct (read_pre n _ _ _ R ltac:(lia)) as (I & _ & P & _). split; [exact I|]. cbn [set_r d_r]. intros s2 P2. exists (x ++ s2). split; [apply P, P2|].
    unfold read_bytes. cbn [set_r d_r]. assert (n = len x) by lia. subst n.
    assert (Q : read (len x) (contr (x ++ s2) false) = (contr s2 false, Ok x)).
    { destruct x as [|b x]; [apply read0_contr; right; reflexivity|]. apply read_contr. rewrite len_cons. pose proof (len_nonneg x). lia. }
    rewrite Q, Z.eqb_refl. reflexivity.
  Qed.

  Lemma read_full_pre e n : forall cs acc cs' s, 0 < n -> read_full_chunks e n acc cs = (cs', Ok s) -> exists x, s = acc ++ x /\ len x = n /\
    incl (concat cs') (concat cs) /\ (forall s2, padded z cs' s2 -> padded z cs (x ++ s2)).
  Proof.
    intros cs. revert n. induction cs as [|c cs IH]; intros n acc cs' s Hn E; cbn [read_full_chunks] in E; [discriminate|].
    destruct (len c <? n) eqn:L.
    - destruct (IH (n - len c) (acc ++ c) cs' s ltac:(lia) E) as (x & -> & Lx & I & P). exists (c ++ x). rewrite <- app_assoc. split; [reflexivity|].
      rewrite len_app. split; [lia|]. split; [cbn [concat]; apply incl_appr, I|]. intros s2 P2. rewrite <- app_assoc.
      exact (padded_cons z c 0 cs _ (fun _ => eq_refl) (P _ P2)).
    - destruct (len c =? n) eqn:L2; injection E as <- <-.
      + exists c. split; [reflexivity|]. split; [lia|]. split; [cbn [concat]; apply incl_appr, incl_refl|]. intros s2 P2.
        exact (padded_cons z c 0 cs _ (fun _ => eq_refl) P2).
      + exists (take c n). split; [reflexivity|]. rewrite len_take by lia. split; [lia|]. cbn [concat]. split.
        * eapply suffix_incl with (b := take c n). rewrite app_assoc, take_drop. reflexivity.
        * intros s2 P. inversion P as [|c' k cs' s' K P' E1 E2]; subst. rewrite app_assoc, take_drop. constructor; assumption.
  Qed.
  Lemma pad_read_be n : 0 < n -> psim (read_be n).
  Proof.
    intros Hn d d' v E. unfold read_be, read_full in E.
    destruct (read_full_chunks (e_err (r_end (d_r d))) n [] (r_chunks (d_r d))) as [cs' [s|e| |]] eqn:R; try discriminate.
    injection E as <- <-. destruct (read_full_pre _ _ _ _ _ _ Hn R) as (x & -> & Lx & I & P). cbn [app] in *. split; [exact I|].
    cbn [set_r d_r r_chunks]. intros s2 P2. exists (x ++ s2). split; [apply P, P2|]. unfold read_be. cbn [set_r d_r].
    rewrite <- Lx, read_full_contr by lia. reflexivity.
  Qed.

  (** read_into hands out a short chunk with zeros behind it. *)
  Lemma pad_read_into n : 0 <= n -> z = true -> psim (read_into n).
  Proof.
    intros Hn Hz d d' v E. unfold read_into in E. destruct (read n (d_r d)) as [r' [x|e| |]] eqn:R; try discriminate.
    injection E as <- <-. destruct (read_pre n _ _ _ R Hn) as (I & L & P & P0). split; [exact I|]. cbn [set_r d_r]. intros s2 P2.
    pose proof (len_nonneg x) as Lx.
    assert (Hx : exists x', x' = x ++ repeat 0 (Z.to_nat (n - len x)) /\ len x' = n /\ padded z (r_chunks (d_r d)) (x' ++ s2)).
    { eexists. split; [reflexivity|]. split; [rewrite len_app; unfold len at 2; rewrite repeat_length; lia|].
      destruct (Z_le_gt_dec n (len x)) as [G|G].
      - replace (Z.to_nat (n - len x)) with O by lia. cbn [repeat]. rewrite app_nil_r. apply P, P2.
      - rewrite <- app_assoc. apply P0; [lia|intros; congruence|exact P2]. }
    destruct Hx as (x' & <- & Lx' & Px). exists (x' ++ s2). split; [exact Px|]. unfold read_into. cbn [set_r d_r].
    assert (Q : read n (contr (x' ++ s2) false) = (contr s2 false, Ok x')).
    { subst n. destruct x' as [|b x']; [apply read0_contr; right; reflexivity|]. apply read_contr. rewrite len_cons. pose proof (len_nonneg x'). lia. }
    rewrite Q. replace (n - len x') with 0 by lia. cbn [Z.to_nat repeat]. rewrite app_nil_r. reflexivity.
  Qed.


  Lemma decode_pad (m : nat -> Dm value) : (forall f, sim Rpad z (m f) (m f)) -> (forall f f' d d' a, (f <= f')%nat -> m f d = (d', Ok a) -> m f' d = (d', Ok a)) ->
    forall d d' v, (z = false -> no_blob (rest_of d)) -> m (fuel_for d) d = (d', Ok v) ->
    exists s, padded z (r_chunks (d_r d)) s /\ m (fuel_for (set_r (contr s false) d)) (set_r (contr s false) d) = (set_r (contr (rest_of d') false) d', Ok v).
  Proof.
    intros Hs Hm d d' v O E. destruct (Hs (fuel_for d) d d' v O E) as [_ S]. destruct (S (contr (rest_of d') false)) as (r1 & (s1 & P1 & ->) & E1).
    { exists (rest_of d'). split; [apply padded_refl|reflexivity]. }
    exists s1. split; [exact P1|]. eapply Hm; [|exact E1]. unfold fuel_for. cbn [set_r d_r]. rewrite contr_rest. apply padded_length in P1. unfold r_rest. lia.
  Qed.
  Theorem decode3_pad d d' v : (z = false -> no_blob (rest_of d)) -> decode3 d = (d', Ok v) ->
    exists s, padded z (r_chunks (d_r d)) s /\ decode3 (set_r (contr s false) d) = (set_r (contr (rest_of d') false) d', Ok v).
  Proof.
    unfold decode3. apply decode_pad; [|exact dec3_more]. intros f. apply sim_dec3; auto using psim_sim, pad_read_bytes, pad_read_be, pad_read_into.
  Qed.
  Theorem decode0_pad d d' v : (z = false -> no_blob (rest_of d)) -> decode0 d = (d', Ok v) ->
    exists s, padded z (r_chunks (d_r d)) s /\ decode0 (set_r (contr s false) d) = (set_r (contr (rest_of d') false) d', Ok v).
  Proof.
    unfold decode0. apply decode_pad; [|exact dec0_more]. intros f. apply sim_dec0; auto using psim_sim, pad_read_bytes, pad_read_be, pad_read_into.
  Qed.
End Pad.

(** ** A block cut between two Read calls *)
Lemma read_byte_chunk d x t cs e w : d_r d = mkR ((x :: t) :: cs) e w -> t <> [] -> read_byte d = (set_r (mkR (t :: cs) e w) d, Ok x).
Proof.
  intros Hr Ht. destruct t as [|y t]; [congruence|]. unfold read_byte, dbind, read_bytes, read. rewrite Hr. cbn [r_chunks r_end r_with].
  change (1 =? 0) with false. cbv iota. destruct (len (x :: y :: t) <=? 1) eqn:L; [rewrite !len_cons in L; pose proof (len_nonneg t); lia|].
  reflexivity.
Qed.
Lemma read_u29_chunk d v b s cs e w : u29 v b -> d_r d = mkR ((b ++ s) :: cs) e w -> s <> [] -> read_u29 d = (set_r (mkR (s :: cs) e w) d, Ok v).
Proof.
  intros Hu Hr Hs. unfold read_u29.
  assert (RB : forall d x t A (k : Z -> Dm A), d_r d = mkR ((x :: t) :: cs) e w -> t <> [] -> dbind read_byte k d = k x (set_r (mkR (t :: cs) e w) d)).
  { intros d0 x t A k H1 H2. unfold dbind. rewrite (read_byte_chunk _ _ _ _ _ _ H1 H2). reflexivity. }
  inversion Hu; subst; cbn [app] in Hr; rewrite (RB _ _ _ _ _ Hr) by (discriminate || assumption); rewrite land128 by (unfold byte; lia).
  - replace (v <? 128) with true by lia. rewrite Z.eqb_refl, land127, shiftl_mul by lia. unfold dret. rewrite u32_id by lia. do 2 f_equal. lia.
  - replace (128 + a <? 128) with false by lia. cbn [Z.eqb].
    erewrite RB by (reflexivity || discriminate || assumption). rewrite land128 by (unfold byte; lia). replace (b0 <? 128) with true by lia. cbn [Z.eqb].
    rewrite !land127, !shiftl_mul by lia. change (2 ^ 7) with 128. unfold dret, u32. do 2 f_equal. lia.
  - replace (128 + a <? 128) with false by lia. cbn [Z.eqb].
    erewrite RB by (reflexivity || discriminate || assumption). rewrite land128 by (unfold byte; lia). replace (128 + b0 <? 128) with false by lia. cbn [Z.eqb].
    erewrite RB by (reflexivity || discriminate || assumption). rewrite land128 by (unfold byte; lia). replace (c <? 128) with true by lia. cbn [Z.eqb].
    rewrite !land127, !shiftl_mul by lia. change (2 ^ 7) with 128. unfold dret, u32. do 2 f_equal. lia.
  - replace (128 + a <? 128) with false by lia. cbn [Z.eqb].
    erewrite RB by (reflexivity || discriminate || assumption). rewrite land128 by (unfold byte; lia). replace (128 + b0 <? 128) with false by lia. cbn [Z.eqb].
    erewrite RB by (reflexivity || discriminate || assumption). rewrite land128 by (unfold byte; lia). replace (128 + c <? 128) with false by lia. cbn [Z.eqb].
    erewrite RB by (reflexivity || discriminate || assumption).
    rewrite !land127, !shiftl_mul by lia. change (2 ^ 7) with 128. change (2 ^ 8) with 256. unfold dret, u32. do 2 f_equal. lia.
Qed.
Lemma du29_chunk d k b s cs e w : u29 (2 * k + 1) b -> d_r d = mkR ((b ++ s) :: cs) e w -> s <> [] -> decode_u29 d = (set_r (mkR (s :: cs) e w) d, Ok (false, k)).
Proof.
  intros Hu Hr Hs. unfold decode_u29, dbind. rewrite (read_u29_chunk _ _ _ _ _ _ _ Hu Hr Hs). unfold dret.
  change 1 with (2 ^ 1 - 1) at 2. rewrite land_ones, shiftr_div by lia. replace ((2 * k + 1) mod 2 ^ 1 =? 0) with false by lia.
  replace ((2 * k + 1) / 2 ^ 1) with k by lia. reflexivity.
Qed.
Lemma blob_cut m d b (a c : bytes) cs e w : m = 7 \/ m = 11 \/ m = 12 -> u29 (2 * (len a + len c) + 1) b -> a <> [] -> c <> [] -> d_r d = mkR ((m :: b ++ a) :: cs) e w -> cs <> [] ->
  decode3 d = let x := a ++ repeat 0 (length c) in let v := if m =? 12 then VBytes x else VStr x in
              (set_obj3 (d_obj3 d ++ [v]) (set_r (mkR cs e w) d), Ok v).
Proof.
  intros Hm Hu Ha Hc Hr Hcs.
  assert (LA : 0 < len a) by (destruct a; [congruence|rewrite len_cons; pose proof (len_nonneg a); lia]).
  assert (LC : 0 < len c) by (destruct c; [congruence|rewrite len_cons; pose proof (len_nonneg c); lia]).
  assert (Hba : b ++ a <> []) by (destruct b, a; try discriminate; congruence).
  unfold decode3, fuel_for. rewrite Hr. unfold r_rest. cbn [r_chunks concat app]. cbn [dec3]. unfold dbind at 1. rewrite (read_byte_chunk _ _ _ _ _ _ Hr Hba).
  assert (RI : read_into (len a + len c) (set_r (mkR (a :: cs) e w) (set_r (mkR ((b ++ a) :: cs) e w) d)) = (set_r (mkR cs e w) d, Ok (a ++ repeat 0 (length c)))).
  { unfold read_into, read. cbn [set_r d_r r_chunks r_end r_with]. destruct (len a + len c =? 0) eqn:Z1; [lia|].
    destruct (len a <=? len a + len c) eqn:Z2; [|lia]. destruct cs as [|c2 cs]; [congruence|].
    replace (len a + len c - len a) with (len c) by lia. unfold len at 1. rewrite Nat2Z.id. reflexivity. }
  pose proof (du29_chunk (set_r (mkR ((b ++ a) :: cs) e w) d) _ b a cs e w Hu eq_refl Ha) as DU.
  destruct Hm as [-> | [-> | ->]]; cbn [Z.eqb Pos.eqb orb]; unfold decode_xmldoc3, decode_bytearray3, dbind; rewrite DU;
    (destruct (len a + len c =? 0) eqn:Z1; [lia|]); rewrite RI; reflexivity.
Qed.
Lemma blob_whole m d b x rest e : m = 7 \/ m = 11 \/ m = 12 -> u29 (2 * len x + 1) b -> x <> [] -> d_r d = contr (m :: b ++ x ++ rest) e ->
  decode3 d = let v := if m =? 12 then VBytes x else VStr x in (set_obj3 (d_obj3 d ++ [v]) (set_r (contr rest e) d), Ok v).
Proof.
  intros Hm Hu Hx Hr. assert (LX : 0 < len x) by (destruct x; [congruence|rewrite len_cons; pose proof (len_nonneg x); lia]).
  unfold decode3, fuel_for. cbn [dec3]. erewrite dbind_ok by (eapply read_byte_contr; exact Hr).
  assert (RI : read_into (len x) (set_r (contr (x ++ rest) e) (set_r (contr (b ++ x ++ rest) e) d)) = (set_r (contr rest e) d, Ok x)).
  { unfold read_into. cbn [set_r d_r]. rewrite read_contr by exact LX. replace (len x - len x) with 0 by lia. cbn [Z.to_nat repeat]. rewrite app_nil_r. reflexivity. }
  pose proof (du29_val (set_r (contr (b ++ x ++ rest) e) d) _ b (x ++ rest) e Hu eq_refl) as DU.
  destruct Hm as [-> | [-> | ->]]; cbn [Z.eqb Pos.eqb orb]; unfold decode_xmldoc3, decode_bytearray3, dbind; rewrite DU;
    (destruct (len x =? 0) eqn:Z1; [lia|]); rewrite RI; reflexivity.
Qed.
Lemma string_cut d b (a c : bytes) cs e w : u29 (2 * (len a + len c) + 1) b -> a <> [] -> c <> [] -> d_r d = mkR ((6 :: b ++ a) :: cs) e w -> cs <> [] -> snd (decode3 d) = Err EOther.
Proof.
  intros Hu Ha Hc Hr Hcs.
  assert (LA : 0 < len a) by (destruct a; [congruence|rewrite len_cons; pose proof (len_nonneg a); lia]).
  assert (LC : 0 < len c) by (destruct c; [congruence|rewrite len_cons; pose proof (len_nonneg c); lia]).
  assert (Hba : b ++ a <> []) by (destruct b, a; try discriminate; congruence).
  unfold decode3, fuel_for. rewrite Hr. unfold r_rest. cbn [r_chunks concat app]. cbn [dec3]. unfold dbind at 1. rewrite (read_byte_chunk _ _ _ _ _ _ Hr Hba).
  cbn [Z.eqb Pos.eqb orb]. unfold decode_string3, dbind. rewrite (du29_chunk (set_r (mkR ((b ++ a) :: cs) e w) d) _ b a cs e w Hu eq_refl Ha).
  destruct (len a + len c =? 0) eqn:Z1; [lia|]. unfold read_bytes, read. cbn [set_r d_r r_chunks r_end r_with]. rewrite Z1.
  destruct (len a <=? len a + len c) eqn:Z2; [|lia]. destruct cs as [|c2 cs]; [congruence|]. destruct (len a =? len a + len c) eqn:Z3; [lia|]. reflexivity.
Qed.
