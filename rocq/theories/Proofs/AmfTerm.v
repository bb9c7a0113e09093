(** Termination, consumption and absence of panics of the AMF decoders. *)
From Verif Require Import Base.Go Base.GoFacts Base.IO Base.Float64 Proofs.IOFacts
  Model.AmfTypes Model.Amf3 Model.Amf0 Spec.Amf Proofs.AmfFacts.

Definition rem (d : dstate) : nat := length (r_rest (d_r d)).

(** m, run from d, does not run out of fuel, leaves a suffix of the input, consumes at least one byte
    on success if [strict], and does not panic unless the input contains a byte equal to 7
    (the AMF0 reference marker) and [ap] allows it. *)
Definition sane {A} (ap strict : bool) (m : Dm A) (d : dstate) : Prop :=
  snd (m d) <> OutOfFuel /\
  (snd (m d) = Panic -> ap = true /\ In 7 (r_rest (d_r d))) /\
  (exists p, r_rest (d_r d) = p ++ r_rest (d_r (fst (m d)))) /\
  (strict = true -> forall a, snd (m d) = Ok a -> (rem (fst (m d)) < rem d)%nat).

Lemma sane_rem {A} ap s (m : Dm A) d : sane ap s m d -> (rem (fst (m d)) <= rem d)%nat.
Proof. intros (_ & _ & [p H] & _). unfold rem. rewrite H, app_length. lia. Qed.

Lemma sane_ret {A} ap (a : A) d : sane ap false (dret a) d.
Proof. repeat split; cbn; try discriminate. exists []. reflexivity. Qed.
Lemma sane_fail {A} ap s e d : sane ap s (@dfail A e) d.
Proof. repeat split; cbn; try discriminate. exists []. reflexivity. Qed.
Lemma sane_weak {A} ap s (m : Dm A) d : sane false s m d -> sane ap s m d.
Proof.
  intros (H1 & H2 & H3 & H4). split; [exact H1|]. split; [|split; assumption].
  intros H; destruct (H2 H); discriminate.
Qed.
Lemma sane_lax {A} ap s (m : Dm A) d : sane ap s m d -> sane ap false m d.
Proof. intros (H1 & H2 & H3 & H4). split; [exact H1|]. split; [exact H2|]. split; [exact H3|]. discriminate. Qed.

Lemma sane_bind {A B} ap s1 s2 (m : Dm A) (k : A -> Dm B) d :
  sane ap s1 m d ->
  (forall a d', m d = (d', Ok a) -> sane ap s2 (k a) d') ->
  sane ap (s1 || s2) (dbind m k) d.
Proof.
  intros (H1 & H2 & [p H3] & H4) Hk. unfold sane, dbind.
  destruct (m d) as [d' [a|e| |]] eqn:E; cbn [fst snd] in *.
  - destruct (Hk a d' eq_refl) as (K1 & K2 & [q K3] & K4).
    split; [exact K1|]. split.
    + intros HP. destruct (K2 HP) as [Ha Hi]. split; [exact Ha|]. rewrite H3. apply in_or_app. right; exact Hi.
    + split.
      * exists (p ++ q). rewrite H3, K3, app_assoc. reflexivity.
      * intros Hs b Hb.
        assert (Hle : (rem (fst (k a d')) <= rem d')%nat) by (unfold rem; rewrite K3, app_length; lia).
        assert (Hle2 : (rem d' <= rem d)%nat) by (unfold rem; rewrite H3, app_length; lia).
        destruct s1; [specialize (H4 eq_refl a eq_refl); lia|].
        cbn in Hs. specialize (K4 Hs b Hb). lia.
  - split; [discriminate|]. split; [discriminate|]. split; [exists p; exact H3|]. intros; discriminate.
  - split; [discriminate|]. split; [intros _; apply H2; reflexivity|]. split; [exists p; exact H3|]. intros; discriminate.
  - congruence.
Qed.

Lemma read_rest n r : exists p, r_rest r = p ++ r_rest (fst (read n r)) /\
  (forall s, snd (read n r) = Ok s -> p = s) /\ snd (read n r) <> Panic /\ snd (read n r) <> OutOfFuel.
Proof.
  unfold read, r_rest. destruct (r_chunks r) as [|c cs] eqn:E.
  - exists []. destruct ((n =? 0) && negb (e_zero (r_end r))); cbn; rewrite E; repeat split; try discriminate; intros; congruence.
  - destruct (n =? 0); [exists []; cbn; rewrite E; repeat split; try discriminate; intros; congruence|].
    destruct (len c <=? n); cbn.
    + exists c. split; [reflexivity|]. destruct cs; [destruct (r_with r)|]; repeat split; try discriminate; intros; congruence.
    + exists (take c n). rewrite app_assoc, take_drop. repeat split; try discriminate. intros; congruence.
Qed.

Lemma read_full_chunks_rest cs : forall e n acc,
  (exists p, concat cs = p ++ concat (fst (read_full_chunks e n acc cs)) /\
     (forall s, snd (read_full_chunks e n acc cs) = Ok s -> acc ++ p = s /\ (cs <> [] -> 0 < n -> len p = n))) /\
  snd (read_full_chunks e n acc cs) <> Panic /\ snd (read_full_chunks e n acc cs) <> OutOfFuel.
Proof.
  induction cs as [|c cs IH]; intros e n acc; cbn [read_full_chunks concat].
  - split; [exists []; cbn; split; [reflexivity|destruct acc; discriminate]|].
    destruct acc; cbn; split; discriminate.
  - destruct (len c <? n) eqn:E1.
    + destruct (IH e (n - len c) (acc ++ c)) as ((p & Hp & Hs) & H2 & H3).
      split; [|split; assumption]. exists (c ++ p). split; [rewrite Hp at 1; rewrite app_assoc; reflexivity|].
      intros s Hok. destruct (Hs s Hok) as [Ha Hl]. split; [rewrite app_assoc; exact Ha|].
      intros _ Hn. rewrite len_app. destruct cs as [|c2 cs].
      * cbn in Hok. destruct (acc ++ c); discriminate.
      * rewrite (Hl ltac:(discriminate)) by lia. lia.
    + destruct (len c =? n) eqn:E2; cbn [fst snd].
      * split; [|split; discriminate]. exists c. split; [reflexivity|]. intros s Hs. inversion Hs; subst. split; [reflexivity|]. lia.
      * split; [|split; discriminate]. exists (take c n). cbn [concat]. rewrite app_assoc, take_drop. split; [reflexivity|].
        intros s Hs; inversion Hs; subst. split; [reflexivity|]. intros _ Hn. apply len_take. lia.
Qed.

Lemma sane_read_bytes ap n d : sane ap (0 <? n) (read_bytes n) d.
Proof.
  unfold sane, read_bytes. destruct (read_rest n (d_r d)) as (p & Hp & Hs & HP & HF).
  destruct (read n (d_r d)) as [r' [s|e| |]]; cbn [fst snd] in *; try congruence.
  - split; [destruct (len s =? n); discriminate|]. split; [destruct (len s =? n); discriminate|].
    split; [exists p; exact Hp|]. intros H a Ha. destruct (len s =? n) eqn:E; [|discriminate].
    specialize (Hs s eq_refl). subst p. unfold rem. cbn [d_r set_r]. rewrite Hp, app_length.
    unfold len in E. lia.
  - split; [discriminate|]. split; [discriminate|]. split; [exists p; exact Hp|]. intros; discriminate.
Qed.

Lemma sane_read_byte ap d : sane ap true read_byte d.
Proof.
  unfold read_byte. change true with (true || false).
  eapply sane_bind; [apply (sane_read_bytes ap 1)|]. intros; apply sane_ret.
Qed.

(** The byte read_byte returns comes from the input. *)
Lemma read_byte_in d d' b : read_byte d = (d', Ok b) -> In b (r_rest (d_r d)).
Proof.
  unfold read_byte, dbind, read_bytes. destruct (read_rest 1 (d_r d)) as (p & Hp & Hs & _ & _).
  destruct (read 1 (d_r d)) as [r' [s|e| |]]; cbn [fst snd] in *; try discriminate.
  destruct (len s =? 1) eqn:E; [|discriminate]. intros H. inversion H; subst.
  specialize (Hs s eq_refl). subst p. rewrite Hp. destruct s as [|x s]; [discriminate|]. left. reflexivity.
Qed.

Lemma sane_read_be ap n d : 0 < n -> sane ap true (read_be n) d.
Proof.
  intros Hn. unfold sane, read_be, read_full.
  destruct (read_full_chunks_rest (r_chunks (d_r d)) (e_err (r_end (d_r d))) n []) as ((p & Hp & Hs) & HP & HF).
  destruct (read_full_chunks (e_err (r_end (d_r d))) n [] (r_chunks (d_r d))) as [cs' [s|e| |]] eqn:E; cbn [fst snd] in *; try congruence.
  - split; [discriminate|]. split; [discriminate|]. split; [exists p; exact Hp|]. intros _ a Ha.
    destruct (Hs s eq_refl) as [_ Hl]. unfold rem, r_rest. cbn [d_r set_r r_chunks]. rewrite Hp, app_length.
    assert (Hl' : len p = n).
    { apply Hl; [|exact Hn]. intros Hc. rewrite Hc in E. cbn in E. discriminate. }
    unfold len in Hl'. lia.
  - split; [discriminate|]. split; [discriminate|]. split; [exists p; exact Hp|]. intros; discriminate.
Qed.


Lemma sane_read_into ap n d : sane ap false (read_into n) d.
Proof.
  unfold sane, read_into. destruct (read_rest n (d_r d)) as (p & Hp & Hs & HP & HF).
  destruct (read n (d_r d)) as [r' [s|e| |]]; cbn [fst snd] in *; try congruence.
  - split; [discriminate|]. split; [discriminate|]. split; [exists p; exact Hp|]. discriminate.
  - split; [discriminate|]. split; [discriminate|]. split; [exists p; exact Hp|]. discriminate.
Qed.

(** Computations that do not touch the reader and always return or fail. *)
Lemma sane_pure {A} ap s (m : Dm A) d :
  d_r (fst (m d)) = d_r d -> snd (m d) <> OutOfFuel -> snd (m d) <> Panic ->
  (s = false \/ exists e, snd (m d) = Err e) -> sane ap s m d.
Proof.
  intros H1 H2 H3 H4. unfold sane. rewrite H1. split; [exact H2|]. split; [congruence|].
  split; [exists []; reflexivity|]. destruct H4 as [->|[e He]]; [discriminate|].
  intros _ a Ha. congruence.
Qed.
Lemma sane_alloc ap d : sane ap false alloc d.
Proof. apply sane_pure; cbn; auto; discriminate. Qed.
Lemma sane_obj_set ap l k v d : sane ap false (obj_set l k v) d.
Proof. apply sane_pure; cbn; auto; discriminate. Qed.
Lemma sane_obj3_push ap v d : sane ap false (obj3_push v) d.
Proof. apply sane_pure; cbn; auto; discriminate. Qed.
Lemma sane_ref0_push ap v d : sane ap false (ref0_push v) d.
Proof. apply sane_pure; cbn; auto; discriminate. Qed.
Lemma sane_obj3_ref ap v d : sane ap false (obj3_ref v) d.
Proof. apply sane_pure; unfold obj3_ref; destruct (len (d_obj3 d) <=? v); cbn; auto; discriminate. Qed.
Lemma sane_any {A} ap (m : Dm A) d b : sane ap true m d -> sane ap b m d.
Proof. destruct b; [auto|]. apply sane_lax. Qed.

(** bind where the first part is strict / lax. *)
Lemma sane_bind_s {A B} ap s (m : Dm A) (k : A -> Dm B) d :
  sane ap true m d -> (forall a d', m d = (d', Ok a) -> (rem d' < rem d)%nat -> sane ap false (k a) d') ->
  sane ap s (dbind m k) d.
Proof.
  intros Hm Hk. apply sane_any. change true with (true || false). eapply sane_bind; [exact Hm|].
  intros a d' E. apply (Hk a d' E). destruct Hm as (_ & _ & _ & H). rewrite E in H. exact (H eq_refl a eq_refl).
Qed.
Lemma sane_bind_l {A B} ap s (m : Dm A) (k : A -> Dm B) d :
  sane ap false m d -> (forall a d', m d = (d', Ok a) -> (rem d' <= rem d)%nat -> sane ap s (k a) d') ->
  sane ap s (dbind m k) d.
Proof.
  intros Hm Hk. change s with (false || s). eapply sane_bind; [exact Hm|].
  intros a d' E. apply (Hk a d' E). apply sane_rem in Hm. rewrite E in Hm. exact Hm.
Qed.

Create HintDb sane.
Local Hint Resolve sane_ret sane_fail sane_read_byte sane_read_into sane_alloc sane_obj_set sane_obj3_push
  sane_ref0_push sane_obj3_ref : sane.

Lemma sane_read_u29 ap s d : sane ap s read_u29 d.
Proof.
  unfold read_u29. cbv zeta.
  apply sane_bind_s; [apply sane_read_byte|]. intros b1 d1 _ _.
  destruct (Z.land b1 128 =? 0); [apply sane_ret|].
  apply sane_bind_l; [apply sane_lax with true, sane_read_byte|]. intros b2 d2 _ _.
  destruct (Z.land b2 128 =? 0); [apply sane_ret|].
  apply sane_bind_l; [apply sane_lax with true, sane_read_byte|]. intros b3 d3 _ _.
  destruct (Z.land b3 128 =? 0); [apply sane_ret|].
  apply sane_bind_l; [apply sane_lax with true, sane_read_byte|]. intros b4 d4 _ _.
  apply sane_ret.
Qed.

Lemma sane_decode_u29 ap s d : sane ap s decode_u29 d.
Proof.
  unfold decode_u29. apply sane_bind_s; [apply sane_read_u29|]. intros; apply sane_ret.
Qed.

Lemma sane_decode_string3 ap s d : sane ap s decode_string3 d.
Proof.
  unfold decode_string3. apply sane_bind_s; [apply sane_decode_u29|]. intros [b v] d1 _ _.
  destruct b; [apply sane_pure; destruct (len (d_str3 d1) <=? v); cbn; auto; discriminate|].
  destruct (v =? 0); [apply sane_ret|].
  apply sane_bind_l; [eapply sane_lax, sane_read_bytes|]. intros x d2 _ _.
  apply sane_pure; cbn; auto; discriminate.
Qed.

Lemma sane_decode_date3 ap s d : sane ap s decode_date3 d.
Proof.
  unfold decode_date3. apply sane_bind_s; [apply sane_decode_u29|]. intros [b v] d1 _ _.
  destruct b.
  - apply sane_bind_l; [apply sane_obj3_ref|]. intros x d2 _ _. destruct x; auto with sane.
  - apply sane_bind_l.
    + pose proof (sane_read_be ap 8 d1 ltac:(lia)) as (H1 & H2 & H3 & H4). unfold sane.
      destruct (read_be 8 d1) as [d2 [z|e| |]]; cbn [fst snd] in *; repeat split; auto; try discriminate;
      apply H2; reflexivity.
    + intros bits d2 _ _. cbv zeta. apply sane_bind_l; auto with sane.
Qed.

Lemma sane_decode_xmldoc3 ap s d : sane ap s decode_xmldoc3 d.
Proof.
  unfold decode_xmldoc3. apply sane_bind_s; [apply sane_decode_u29|]. intros [b v] d1 _ _.
  destruct b.
  - apply sane_bind_l; [apply sane_obj3_ref|]. intros x d2 _ _. destruct x; auto with sane.
  - destruct (v =? 0); [apply sane_ret|]. apply sane_bind_l; auto with sane. intros.
    apply sane_bind_l; auto with sane.
Qed.
Lemma sane_decode_bytearray3 ap s d : sane ap s decode_bytearray3 d.
Proof.
  unfold decode_bytearray3. apply sane_bind_s; [apply sane_decode_u29|]. intros [b v] d1 _ _.
  destruct b.
  - apply sane_bind_l; [apply sane_obj3_ref|]. intros x d2 _ _. destruct x; auto with sane.
  - destruct (v =? 0); [apply sane_ret|]. apply sane_bind_l; auto with sane. intros.
    apply sane_bind_l; auto with sane.
Qed.

Lemma sane_read_flags ap fuel : forall d, (rem d < fuel)%nat -> sane ap false (read_flags fuel) d.
Proof.
  induction fuel as [|f IH]; intros d Hd; [lia|]. cbn [read_flags].
  apply sane_bind_s; [apply sane_read_byte|]. intros b d1 _ H1.
  destruct (Z.land b 128 =? 0); [apply sane_ret|].
  apply sane_bind_l; [apply IH; lia|]. intros; apply sane_ret.
Qed.

Lemma sane_loop_n {A} ap (body : Dm A) : forall fuel n d,
  (forall d', (rem d' <= rem d)%nat -> sane ap true body d') ->
  (rem d < fuel)%nat -> sane ap false (loop_n body fuel n) d.
Proof.
  induction fuel as [|f IH]; intros n d Hb Hf; [lia|]. cbn [loop_n].
  destruct (n <=? 0); [apply sane_ret|].
  apply sane_bind_s; [apply Hb; lia|]. intros x d1 _ H1.
  apply sane_bind_l; [apply IH; [intros; apply Hb; lia|lia]|]. intros; apply sane_ret.
Qed.

  (** AMF0 *)
  Lemma sane_decode_string0 ap s d : sane ap s decode_string0 d.
  Proof.
    unfold decode_string0. apply sane_bind_s; [apply sane_read_be; lia|]. intros. eapply sane_lax, sane_read_bytes.
  Qed.
  Lemma sane_decode_longstring0 ap s d : sane ap s decode_longstring0 d.
  Proof.
    unfold decode_longstring0. apply sane_bind_s; [apply sane_read_be; lia|]. intros. eapply sane_lax, sane_read_bytes.
  Qed.
  Lemma sane_decode_date0 ap s d : sane ap s decode_date0 d.
  Proof.
    unfold decode_date0. apply sane_bind_s; [apply sane_read_be; lia|]. intros bits d1 _ _.
    apply sane_bind_l; [eapply sane_lax, sane_read_bytes|]. intros; apply sane_ret.
  Qed.

Section WithDec.
  Variable dec : Dm value.
  Variable ap : bool.
  Variable f : nat.
  Hypothesis Hdec : forall d, (rem d < f)%nat -> sane ap true dec d.

  Lemma sane_ext_named loc flags : forall names p d, (rem d < f)%nat ->
    sane ap false (ext_named dec loc flags p names) d.
  Proof.
    induction names as [|n ns IH]; intros p d Hd; cbn [ext_named]; [apply sane_ret|].
    apply sane_bind_l.
    - destruct (Z.land flags (u8 (2 ^ p)) =? 1); [|apply sane_ret].
      apply sane_bind_s; [apply Hdec; lia|]. intros; apply sane_obj_set.
    - intros _ d1 _ H1. apply IH. lia.
  Qed.
  Lemma sane_ext_extra loc i flags : forall js d, (rem d < f)%nat ->
    sane ap false (ext_extra dec loc i flags js) d.
  Proof.
    induction js as [|n ns IH]; intros d Hd; cbn [ext_extra]; [apply sane_ret|].
    apply sane_bind_l.
    - destruct (Z.land (Z.shiftr flags n) 1 =? 1); [|apply sane_ret].
      apply sane_bind_s; [apply Hdec; lia|]. intros; apply sane_obj_set.
    - intros _ d1 _ H1. apply IH. lia.
  Qed.
  Lemma sane_ext_flags loc : forall fs i fields d, (rem d < f)%nat ->
    sane ap false (ext_flags dec loc i fields fs) d.
  Proof.
    induction fs as [|fl fs IH]; intros i fields d Hd; cbn [ext_flags]; [apply sane_ret|].
    apply sane_bind_l; [apply sane_ext_named; lia|]. intros _ d1 _ H1.
    apply sane_bind_l.
    - destruct (Z.shiftr fl _ =? 0); [apply sane_ret|apply sane_ext_extra; lia].
    - intros _ d2 _ H2. apply IH. lia.
  Qed.
  Lemma sane_decode_external loc fields d : (rem d < f)%nat ->
    sane ap false (decode_external dec f loc fields) d.
  Proof.
    intros Hd. unfold decode_external. apply sane_bind_l; [apply sane_read_flags; lia|].
    intros fs d1 _ H1. apply sane_ext_flags. lia.
  Qed.
  Lemma sane_abstract d : (rem d < f)%nat -> sane ap false (decode_abstract dec f) d.
  Proof.
    intros Hd. unfold decode_abstract. apply sane_bind_l; [apply sane_alloc|]. intros l d1 _ H1.
    apply sane_bind_l; [apply sane_decode_external; lia|]. intros; apply sane_ret.
  Qed.
  Lemma sane_async d : (rem d < f)%nat -> sane ap false (decode_async dec f) d.
  Proof.
    intros Hd. unfold decode_async. apply sane_bind_l; [apply sane_abstract; lia|]. intros l d1 _ H1.
    apply sane_bind_l; [apply sane_decode_external; lia|]. intros; apply sane_ret.
  Qed.
  Lemma sane_ack d : (rem d < f)%nat -> sane ap false (decode_ack dec f) d.
  Proof.
    intros Hd. unfold decode_ack. apply sane_bind_l; [apply sane_async; lia|]. intros l d1 _ H1.
    apply sane_bind_l; [apply sane_decode_external; lia|]. intros; apply sane_ret.
  Qed.
  Lemma sane_assoc_loop loc : forall fuel key d, (rem d < fuel)%nat -> (fuel <= f)%nat ->
    sane ap false (assoc_loop dec fuel loc key) d.
  Proof.
    induction fuel as [|fu IH]; intros key d Hd Hf; [lia|].
    destruct key as [|k key]; cbn [assoc_loop]; [apply sane_ret|].
    apply sane_bind_s; [apply Hdec; lia|]. intros v d1 _ H1.
    apply sane_bind_l; [apply sane_obj_set|]. intros _ d2 _ H2.
    apply sane_bind_l; [apply sane_decode_string3|]. intros k' d3 _ H3.
    apply IH; lia.
  Qed.
  Lemma sane_decode_array3 s d : (rem d < f)%nat -> sane ap s (decode_array3 dec f) d.
  Proof.
    intros Hd. unfold decode_array3. apply sane_bind_s; [apply sane_decode_u29|]. intros [b v] d1 _ H1.
    destruct b.
    - apply sane_bind_l; [apply sane_obj3_ref|]. intros x d2 _ _. destruct x; auto with sane.
    - apply sane_bind_l; [apply sane_decode_string3|]. intros key d2 _ H2.
      apply sane_bind_l; [apply sane_obj3_push|]. intros _ d3 _ H3.
      apply sane_bind_l; [apply sane_alloc|]. intros loc d4 _ H4.
      apply sane_bind_l; [apply sane_assoc_loop; lia|]. intros _ d5 _ H5.
      apply sane_bind_l; [apply sane_loop_n; [intros; apply Hdec; lia|lia]|]. intros; apply sane_ret.
  Qed.
  Lemma sane_props_loop loc : forall keys d, (rem d < f)%nat -> sane ap false (props_loop dec loc keys) d.
  Proof.
    induction keys as [|k ks IH]; intros d Hd; cbn [props_loop]; [apply sane_ret|].
    apply sane_bind_s; [apply Hdec; lia|]. intros v d1 _ H1.
    apply sane_bind_l; [apply sane_obj_set|]. intros _ d2 _ H2. apply IH. lia.
  Qed.
  Lemma sane_dyn_loop loc : forall fuel d, (rem d < fuel)%nat -> (fuel <= f)%nat ->
    sane ap false (dyn_loop dec fuel loc) d.
  Proof.
    induction fuel as [|fu IH]; intros d Hd Hf; [lia|]. cbn [dyn_loop].
    apply sane_bind_s; [apply sane_decode_string3|]. intros k d1 _ H1.
    destruct k as [|c k]; [apply sane_ret|].
    apply sane_bind_s; [apply Hdec; lia|]. intros v d2 _ H2.
    apply sane_bind_l; [apply sane_obj_set|]. intros _ d3 _ H3. apply IH; lia.
  Qed.
  Lemma sane_decode_trait v d : (rem d < f)%nat -> sane ap false (decode_trait f v) d.
  Proof.
    intros Hd. unfold decode_trait. destruct (Z.land v 1 =? 0).
    - apply sane_pure; cbv zeta; destruct (len (d_trait3 d) <=? Z.shiftr v 1); cbn; auto; discriminate.
    - cbv zeta. apply sane_bind_l; [apply sane_decode_string3|]. intros ty d1 _ H1.
      apply sane_bind_l; [apply sane_loop_n; [intros; apply sane_decode_string3|lia]|]. intros ps d2 _ H2.
      apply sane_pure; cbn; auto; discriminate.
  Qed.
  Lemma sane_decode_externalizable t d : (rem d < f)%nat -> sane ap false (decode_externalizable dec f t) d.
  Proof.
    intros Hd. unfold decode_externalizable.
    destruct (bytes_eqb _ _); [apply sane_bind_l; [apply sane_async; lia|]; intros; apply sane_ret|].
    destruct (bytes_eqb _ _); [apply sane_bind_l; [apply sane_ack; lia|]; intros; apply sane_ret|].
    destruct (bytes_eqb _ _); [|apply sane_fail].
    apply sane_bind_s; [apply Hdec; lia|]. intros. apply sane_bind_l; auto with sane.
  Qed.
  Lemma sane_decode_object3 s d : (rem d < f)%nat -> sane ap s (decode_object3 dec f) d.
  Proof.
    intros Hd. unfold decode_object3. apply sane_bind_s; [apply sane_decode_u29|]. intros [b v] d1 _ H1.
    destruct b; [apply sane_obj3_ref|].
    apply sane_bind_l; [apply sane_decode_trait; lia|]. intros t d2 _ H2.
    apply sane_bind_l; [apply sane_obj3_push|]. intros _ d3 _ H3.
    destruct (t_ext t); [apply sane_decode_externalizable; lia|].
    apply sane_bind_l; [apply sane_alloc|]. intros loc d4 _ H4.
    apply sane_bind_l; [apply sane_props_loop; lia|]. intros _ d5 _ H5.
    apply sane_bind_l; [destruct (t_dyn t); [apply sane_dyn_loop; lia|apply sane_ret]|]. intros; apply sane_ret.
  Qed.

  Lemma sane_obj_loop loc : forall fuel d, (rem d < fuel)%nat -> (fuel <= f)%nat ->
    sane ap false (obj_loop dec fuel loc) d.
  Proof.
    induction fuel as [|fu IH]; intros d Hd Hf; [lia|]. cbn [obj_loop].
    apply sane_bind_s; [apply sane_decode_string0|]. intros k d1 _ H1.
    destruct k as [|c k].
    - unfold next_byte_must_be. apply sane_bind_s; [apply sane_read_byte|]. intros m d2 _ _.
      destruct (m =? 9); auto with sane.
    - apply sane_bind_s; [apply Hdec; lia|]. intros v d2 _ H2.
      apply sane_bind_l; [apply sane_obj_set|]. intros _ d3 _ H3. apply IH; lia.
  Qed.
  Lemma sane_decode_object0 d : (rem d < f)%nat -> sane ap false (decode_object0 dec f) d.
  Proof.
    intros Hd. unfold decode_object0. apply sane_bind_l; [apply sane_alloc|]. intros loc d1 _ H1.
    apply sane_bind_l; [apply sane_ref0_push|]. intros _ d2 _ H2.
    apply sane_bind_l; [apply sane_obj_loop; lia|]. intros; apply sane_ret.
  Qed.
  Lemma sane_decode_ecma0 s d : (rem d < f)%nat -> sane ap s (decode_ecma0 dec f) d.
  Proof.
    intros Hd. unfold decode_ecma0. apply sane_bind_s; [apply sane_read_be; lia|]. intros _ d1 _ H1.
    apply sane_bind_l; [apply sane_decode_object0; lia|]. intros; apply sane_ret.
  Qed.
  Lemma sane_decode_strict0 s d : (rem d < f)%nat -> sane ap s (decode_strict0 dec f) d.
  Proof.
    intros Hd. unfold decode_strict0. apply sane_bind_s; [apply sane_read_be; lia|]. intros n d1 _ H1.
    apply sane_bind_l; [apply sane_ref0_push|]. intros _ d2 _ H2.
    apply sane_bind_l; [apply sane_loop_n; [intros; apply Hdec; lia|lia]|]. intros; apply sane_ret.
  Qed.
  Lemma sane_decode_typed0 s d : (rem d < f)%nat -> sane ap s (decode_typed0 dec f) d.
  Proof.
    intros Hd. unfold decode_typed0. apply sane_bind_l; [apply sane_ref0_push|]. intros _ d1 _ H1.
    apply sane_bind_s; [apply sane_decode_string0|]. intros ty d2 _ H2.
    apply sane_bind_l; [apply sane_decode_object0; lia|]. intros; apply sane_ret.
  Qed.
End WithDec.

Theorem sane_dec3 : forall fuel d, (rem d < fuel)%nat -> sane false true (dec3 fuel) d.
Proof.
  induction fuel as [|f IH]; intros d Hd; [lia|]. cbn [dec3].
  apply sane_bind_s; [apply sane_read_byte|]. intros m d1 _ H1.
  repeat match goal with |- sane _ _ (if ?c then _ else _) _ => destruct c end;
    try (apply sane_ret); try (apply sane_fail); try (apply sane_decode_xmldoc3);
    try (apply sane_decode_date3); try (apply sane_decode_bytearray3).
  - apply sane_bind_s; [apply sane_read_u29|]. intros; apply sane_ret.
  - apply sane_bind_s; [apply sane_read_be; lia|]. intros; apply sane_ret.
  - apply sane_bind_s; [apply sane_decode_string3|]. intros; apply sane_ret.
  - apply sane_decode_array3; [exact IH|lia].
  - apply sane_decode_object3; [exact IH|lia].
Qed.

Theorem sane_dec0 : forall fuel d, (rem d < fuel)%nat -> sane true true (dec0 fuel) d.
Proof.
  induction fuel as [|f IH]; intros d Hd; [lia|]. cbn [dec0].
  assert (Hb := sane_read_byte true d).
  unfold sane, dbind. destruct (read_byte d) as [d1 [m|e| |]] eqn:E.
  2-4: unfold sane in Hb; rewrite E in Hb; cbn [fst snd] in *; destruct Hb as (B1 & B2 & B3 & B4);
    repeat split; auto; try discriminate; try (apply B2; reflexivity); congruence.
  assert (H1 : (rem d1 < rem d)%nat).
  { destruct Hb as (_ & _ & _ & H). rewrite E in H. exact (H eq_refl m eq_refl). }
  assert (Hsuf : exists p, r_rest (d_r d) = p ++ r_rest (d_r d1)).
  { destruct Hb as (_ & _ & H & _). rewrite E in H. exact H. }
  pose proof (read_byte_in d d1 m E) as Hin.
  set (K := if m =? 0 then _ else _).
  assert (HK : (m = 7 /\ K = decode_reference0) \/ sane true false K d1).
  { destruct (Z.eq_dec m 7) as [->|Hm7]; [left; split; reflexivity|right]. subst K.
    repeat match goal with |- sane _ _ (if ?c then _ else _) _ => destruct c eqn:? end;
    try lia;
    try (apply sane_ret); try (apply sane_fail).
    - apply sane_bind_s; [apply sane_read_be; lia|]. intros; apply sane_ret.
    - apply sane_bind_s; [apply sane_read_byte|]. intros; apply sane_ret.
    - apply sane_bind_s; [apply sane_decode_string0|]. intros; apply sane_ret.
    - apply sane_bind_l; [apply sane_decode_object0; [exact IH|lia]|]. intros; apply sane_ret.
    - apply sane_decode_ecma0; [exact IH|lia].
    - apply sane_decode_strict0; [exact IH|lia].
    - apply sane_decode_date0.
    - apply sane_bind_s; [apply sane_decode_longstring0|]. intros; apply sane_ret.
    - apply sane_bind_s; [apply sane_decode_longstring0|]. intros; apply sane_ret.
    - apply sane_decode_typed0; [exact IH|lia].
    - eapply sane_weak, sane_lax, sane_dec3. lia. }
  destruct Hsuf as [p Hp].
  assert (HK2 : snd (K d1) <> OutOfFuel /\ (snd (K d1) = Panic -> In 7 (r_rest (d_r d))) /\
                exists q, r_rest (d_r d1) = q ++ r_rest (d_r (fst (K d1)))).
  { destruct HK as [[Hm HK]|HK].
    - rewrite HK. unfold decode_reference0, dbind.
      pose proof (sane_read_be true 2 d1 ltac:(lia)) as (B1 & B2 & [q B3] & B4).
      destruct (read_be 2 d1) as [d2 [z|e| |]]; cbn [fst snd] in *; try congruence.
      + destruct (len (d_ref0 d2) <? z), (z =? len (d_ref0 d2)); cbn [fst snd]; repeat split;
          try discriminate; try (intros _; subst m; exact Hin); exists q; exact B3.
      + repeat split; try discriminate. exists q; exact B3.
      + split; [discriminate|]. split; [intros _; subst m; exact Hin|]. exists q; exact B3.
    - destruct HK as (K1 & K2 & K3 & K4). split; [exact K1|]. split; [|exact K3].
      intros HP. rewrite Hp. apply in_or_app. right. apply K2, HP. }
  destruct HK2 as (K1 & K2 & [q K3]). repeat split; auto.
  - exists (p ++ q). rewrite Hp, K3, app_assoc. reflexivity.
  - intros _ a _. unfold rem in *. rewrite K3, app_length in H1. lia.
Qed.
