(** Facts that hold of every decoding step, whatever the fuel: the decoder tables only grow, and io.EOF is
    only reported at the end of the input. *)
From Verif Require Import Base.Go Base.GoFacts Base.IO Base.Float64 Proofs.IOFacts
  Model.AmfTypes Model.Amf3 Model.Amf0 Spec.Amf Proofs.AmfFacts.

Definition extends {A} (l l' : list A) : Prop := exists x, l' = l ++ x.

Lemma extends_refl {A} (l : list A) : extends l l.
Proof. exists []. rewrite app_nil_r. reflexivity. Qed.
Lemma extends_trans {A} (a b c : list A) : extends a b -> extends b c -> extends a c.
Proof. intros [x ->] [y ->]. exists (x ++ y). rewrite app_assoc. reflexivity. Qed.
Lemma extends_app {A} (l x : list A) : extends l (l ++ x).
Proof. exists x. reflexivity. Qed.
Lemma extends_nth {A} (l l' : list A) i x : extends l l' -> nth_error l i = Some x -> nth_error l' i = Some x.
Proof.
  intros [y ->] H. rewrite nth_error_app1; [exact H|]. apply nth_error_Some. congruence.
Qed.

Definition step_ok (d d' : dstate) : Prop :=
  extends (d_ref0 d) (d_ref0 d') /\ extends (d_str3 d) (d_str3 d') /\
  extends (d_obj3 d) (d_obj3 d') /\ extends (d_trait3 d) (d_trait3 d') /\
  (length (d_heap d) <= length (d_heap d'))%nat /\ r_end (d_r d') = r_end (d_r d) /\
  extends (rev (r_rest (d_r d'))) (rev (r_rest (d_r d))).

Definition tame {A} (m : Dm A) : Prop := forall d,
  step_ok d (fst (m d)) /\ (snd (m d) = Err EEof -> r_rest (d_r (fst (m d))) = [] /\ e_err (r_end (d_r d)) = EEof).

Lemma step_refl d : step_ok d d.
Proof. repeat split; try apply extends_refl; auto. Qed.
Lemma step_trans a b c : step_ok a b -> step_ok b c -> step_ok a c.
Proof.
  intros (A1 & A2 & A3 & A4 & A5 & A6 & A7) (B1 & B2 & B3 & B4 & B5 & B6 & B7).
  repeat split; try (eapply extends_trans; eassumption); try congruence; lia.
Qed.

Lemma tame_ret {A} (a : A) : tame (dret a).
Proof. intros d. split; [apply step_refl|discriminate]. Qed.
Lemma tame_fail {A} e : e <> EEof -> tame (@dfail A e).
Proof. intros H d. split; [apply step_refl|]. cbn. congruence. Qed.
Lemma tame_fuel {A} : tame (fun d => (d, @OutOfFuel A)).
Proof. intros d. split; [apply step_refl|]. cbn. congruence. Qed.
Lemma tame_bind {A B} (m : Dm A) (k : A -> Dm B) : tame m -> (forall a, tame (k a)) -> tame (dbind m k).
Proof.
  intros Hm Hk d. unfold dbind. destruct (Hm d) as [H1 H2]. destruct (m d) as [d1 [a|e| |]]; cbn [fst snd] in *.
  - destruct (Hk a d1) as [K1 K2]. split; [eapply step_trans; eassumption|]. intros HE. destruct (K2 HE) as [K3 K4]. split; [exact K3|].
    destruct H1 as (_ & _ & _ & _ & _ & H1 & _). rewrite <- H1. exact K4.
  - split; [exact H1|]. intros He. inversion He; subst. apply H2. reflexivity.
  - split; [exact H1|discriminate].
  - split; [exact H1|discriminate].
Qed.

Lemma step_set_r d r : r_end r = r_end (d_r d) -> (exists p, r_rest (d_r d) = p ++ r_rest r) -> step_ok d (set_r r d).
Proof.
  intros He [p Hp]. repeat split; try apply extends_refl; auto.
  exists (rev p). cbn [d_r set_r]. rewrite Hp, rev_app_distr. reflexivity.
Qed.

Lemma read_step n r : r_end (fst (read n r)) = r_end r /\ (exists p, r_rest r = p ++ r_rest (fst (read n r))) /\
  (snd (read n r) = Err EEof -> r_rest (fst (read n r)) = [] /\ e_err (r_end r) = EEof).
Proof.
  unfold read, r_rest. destruct (r_chunks r) as [|c cs] eqn:E.
  - destruct ((n =? 0) && negb (e_zero (r_end r))); cbn; rewrite E; (split; [reflexivity|split; [exists []; reflexivity|]]); intros H; inversion H; split; reflexivity.
  - destruct (n =? 0); [cbn; rewrite E; split; [reflexivity|split; [exists []; reflexivity|discriminate]]|].
    destruct (len c <=? n); cbn; (split; [reflexivity|]).
    + split; [exists c; reflexivity|]. destruct cs; [|discriminate]. destruct (r_with r); [|discriminate]. intros H; inversion H. split; reflexivity.
    + split; [|discriminate]. exists (take c n). rewrite app_assoc, take_drop. reflexivity.
Qed.
Lemma read_full_chunks_step cs : forall e n acc,
  (exists p, concat cs = p ++ concat (fst (read_full_chunks e n acc cs))) /\
  (snd (read_full_chunks e n acc cs) = Err EEof -> concat (fst (read_full_chunks e n acc cs)) = [] /\ e = EEof).
Proof.
  induction cs as [|c cs IH]; intros e n acc; cbn [read_full_chunks concat].
  - split; [exists []; reflexivity|]. cbn [fst snd]. intros H. split; [reflexivity|]. destruct acc, e; cbn in H; congruence.
  - destruct (len c <? n).
    + destruct (IH e (n - len c) (acc ++ c)) as [[p Hp] H2]. split; [|exact H2]. exists (c ++ p). rewrite Hp at 1. apply app_assoc.
    + destruct (len c =? n); cbn [fst snd concat]; (split; [|discriminate]).
      * exists c; reflexivity.
      * exists (take c n). rewrite app_assoc, take_drop. reflexivity.
Qed.

Lemma tame_read_bytes n : tame (read_bytes n).
Proof.
  intros d. unfold read_bytes. destruct (read_step n (d_r d)) as (He & Hp & Hd).
  destruct (read n (d_r d)) as [r' [s|e| |]]; cbn [fst snd] in *; split;
    try (apply step_set_r; assumption); try discriminate.
  - destruct (len s =? n); discriminate.
  - intros H; inversion H; subst. apply Hd. reflexivity.
Qed.
Lemma tame_read_into n : tame (read_into n).
Proof.
  intros d. unfold read_into. destruct (read_step n (d_r d)) as (He & Hp & Hd).
  destruct (read n (d_r d)) as [r' [s|e| |]]; cbn [fst snd] in *; split;
    try (apply step_set_r; assumption); try discriminate.
  intros H; inversion H; subst. apply Hd. reflexivity.
Qed.
Lemma tame_read_be n : tame (read_be n).
Proof.
  intros d. unfold read_be, read_full. destruct (read_full_chunks_step (r_chunks (d_r d)) (e_err (r_end (d_r d))) n []) as (Hp & Hd).
  destruct (read_full_chunks (e_err (r_end (d_r d))) n [] (r_chunks (d_r d))) as [cs [s|e| |]]; cbn [fst snd] in *; split;
    try (apply step_set_r; [reflexivity|exact Hp]); try discriminate.
  intros H; inversion H; subst. apply Hd. reflexivity.
Qed.
Lemma upd_nth_length {A} (f : A -> A) n : forall l, length (upd_nth n f l) = length l.
Proof. induction n; destruct l; cbn; auto. Qed.

Ltac tame_state := intros d; split; [|cbn; try discriminate; auto];
  repeat split; cbn; try apply extends_refl; try apply extends_app; auto.
Lemma tame_alloc : tame alloc.
Proof. tame_state. rewrite app_length; cbn; lia. Qed.
Lemma tame_obj_set l k v : tame (obj_set l k v).
Proof. tame_state. rewrite upd_nth_length; lia. Qed.
Lemma tame_obj3_push v : tame (obj3_push v). Proof. tame_state. Qed.
Lemma tame_ref0_push v : tame (ref0_push v). Proof. tame_state. Qed.
Lemma tame_str3_push s : tame (fun d => (set_str3 (d_str3 d ++ [s]) d, Ok s)). Proof. tame_state. Qed.
Lemma tame_trait3_push s : tame (fun d => (set_trait3 (d_trait3 d ++ [s]) d, Ok s)). Proof. tame_state. Qed.
Lemma tame_id {A} (f : dstate -> res A) : (forall d, f d <> Err EEof) -> tame (fun d => (d, f d)).
Proof. intros H d. split; [apply step_refl|]. intros E. elim (H d E). Qed.
Lemma tame_id2 {A} (c : dstate -> bool) (f g : dstate -> res A) : (forall d, f d <> Err EEof) -> (forall d, g d <> Err EEof) ->
  tame (fun d => if c d then (d, f d) else (d, g d)).
Proof. intros H H2 d. destruct (c d); cbn; (split; [apply step_refl|]); intros E; [elim (H d E)|elim (H2 d E)]. Qed.
Lemma tame_obj3_ref v : tame (obj3_ref v).
Proof. unfold obj3_ref. apply tame_id2; discriminate. Qed.

Ltac tame := repeat first
  [ apply tame_ret | apply tame_fail; discriminate | apply tame_fuel
  | apply tame_read_bytes | apply tame_read_into | apply tame_read_be | apply tame_alloc | apply tame_obj_set
  | apply tame_obj3_push | apply tame_ref0_push | apply tame_str3_push | apply tame_trait3_push | apply tame_obj3_ref
  | assumption
  | apply tame_bind; [|intros ?]
  | apply tame_id2; intros ?; discriminate
  | match goal with
    | |- tame (if ?c then _ else _) => destruct c
    | |- tame (match ?x with _ => _ end) => destruct x
    end
  | progress cbv zeta ].

Lemma tame_read_byte : tame read_byte. Proof. unfold read_byte. tame. Qed.
Lemma tame_next b : tame (next_byte_must_be b). Proof. unfold next_byte_must_be, read_byte. tame. Qed.
Lemma tame_read_u29 : tame read_u29. Proof. unfold read_u29, read_byte. tame. Qed.
Lemma tame_decode_u29 : tame decode_u29.
Proof. unfold decode_u29. apply tame_bind; [apply tame_read_u29|]. intros; tame. Qed.
Lemma tame_decode_string3 : tame decode_string3.
Proof. unfold decode_string3. apply tame_bind; [apply tame_decode_u29|]. intros [b v]. tame. Qed.
Lemma tame_decode_date3 : tame decode_date3.
Proof.
  unfold decode_date3. apply tame_bind; [apply tame_decode_u29|]. intros [b v]. destruct b; [tame|].
  apply tame_bind; [|intros; tame]. intros d. destruct (tame_read_be 8 d) as [H1 H2].
  destruct (read_be 8 d) as [d' [x|e| |]]; cbn [fst snd] in *; split; auto; discriminate.
Qed.
Lemma tame_decode_xmldoc3 : tame decode_xmldoc3.
Proof. unfold decode_xmldoc3. apply tame_bind; [apply tame_decode_u29|]. intros [b v]. tame. Qed.
Lemma tame_decode_bytearray3 : tame decode_bytearray3.
Proof. unfold decode_bytearray3. apply tame_bind; [apply tame_decode_u29|]. intros [b v]. tame. Qed.
Lemma tame_read_flags f : tame (read_flags f).
Proof. induction f; cbn [read_flags]; [tame|]. apply tame_bind; [apply tame_read_byte|]. intros. tame. Qed.
Lemma tame_loop_n {A} (b : Dm A) f : tame b -> forall n, tame (loop_n b f n).
Proof.
  intros Hb. induction f as [|f IH]; intros n; cbn [loop_n]; tame. apply IH.
Qed.

Section WithDec.
  Variable dec : Dm value.
  Hypothesis Hdec : tame dec.
  Lemma tame_ext_named loc fl : forall names p, tame (ext_named dec loc fl p names).
  Proof. induction names; intros; cbn [ext_named]; tame; apply IHnames. Qed.
  Lemma tame_ext_extra loc i fl : forall js, tame (ext_extra dec loc i fl js).
  Proof. induction js; intros; cbn [ext_extra]; tame. Qed.
  Lemma tame_ext_flags loc : forall fs i fields, tame (ext_flags dec loc i fields fs).
  Proof.
    induction fs; intros; cbn [ext_flags]; [tame|]. apply tame_bind; [apply tame_ext_named|]. intros.
    apply tame_bind; [|intros; apply IHfs]. destruct (_ =? 0); [tame|apply tame_ext_extra].
  Qed.
  Lemma tame_external f loc fields : tame (decode_external dec f loc fields).
  Proof. unfold decode_external. apply tame_bind; [apply tame_read_flags|]. intros; apply tame_ext_flags. Qed.
  Lemma tame_abstract f : tame (decode_abstract dec f).
  Proof. unfold decode_abstract. apply tame_bind; [tame|]. intros. apply tame_bind; [apply tame_external|]. intros; tame. Qed.
  Lemma tame_async f : tame (decode_async dec f).
  Proof. unfold decode_async. apply tame_bind; [apply tame_abstract|]. intros. apply tame_bind; [apply tame_external|]. intros; tame. Qed.
  Lemma tame_ack f : tame (decode_ack dec f).
  Proof. unfold decode_ack. apply tame_bind; [apply tame_async|]. intros. apply tame_bind; [apply tame_external|]. intros; tame. Qed.
  Lemma tame_assoc_loop loc : forall f key, tame (assoc_loop dec f loc key).
  Proof.
    induction f; intros [|k key]; cbn [assoc_loop]; tame; try apply tame_decode_string3. apply IHf.
  Qed.
  Lemma tame_array3 f : tame (decode_array3 dec f).
  Proof.
    unfold decode_array3. apply tame_bind; [apply tame_decode_u29|]. intros [b v]. destruct b; [tame|].
    apply tame_bind; [apply tame_decode_string3|]. intros. apply tame_bind; [tame|]. intros.
    apply tame_bind; [tame|]. intros. apply tame_bind; [apply tame_assoc_loop|]. intros.
    apply tame_bind; [apply tame_loop_n; assumption|]. intros; tame.
  Qed.
  Lemma tame_props_loop loc : forall ks, tame (props_loop dec loc ks).
  Proof. induction ks; cbn [props_loop]; tame. Qed.
  Lemma tame_dyn_loop loc : forall f, tame (dyn_loop dec f loc).
  Proof. induction f; cbn [dyn_loop]; [tame|]. apply tame_bind; [apply tame_decode_string3|]. intros; tame. Qed.
  Lemma tame_trait f v : tame (decode_trait f v).
  Proof.
    unfold decode_trait. destruct (_ =? 0); [tame|]. cbv zeta. apply tame_bind; [apply tame_decode_string3|]. intros.
    apply tame_bind; [apply tame_loop_n, tame_decode_string3|]. intros; tame.
  Qed.
  Lemma tame_object3 f : tame (decode_object3 dec f).
  Proof.
    unfold decode_object3. apply tame_bind; [apply tame_decode_u29|]. intros [b v]. destruct b; [tame|].
    apply tame_bind; [apply tame_trait|]. intros t. apply tame_bind; [tame|]. intros. destruct (t_ext t).
    - unfold decode_externalizable. repeat (destruct (bytes_eqb _ _)); [| |tame|tame];
      (apply tame_bind; [first [apply tame_async|apply tame_ack]|intros; tame]).
    - apply tame_bind; [tame|]. intros. apply tame_bind; [apply tame_props_loop|]. intros.
      apply tame_bind; [destruct (t_dyn t); [apply tame_dyn_loop|tame]|]. intros; tame.
  Qed.
  Lemma tame_obj_loop loc : forall f, tame (obj_loop dec f loc).
  Proof.
    induction f; cbn [obj_loop]; [tame|]. apply tame_bind; [unfold decode_string0; tame|]. intros.
    destruct a; [apply tame_next|]. tame.
  Qed.
  Lemma tame_object0 f : tame (decode_object0 dec f).
  Proof. unfold decode_object0. tame. apply tame_obj_loop. Qed.
End WithDec.

Theorem tame_dec3 : forall f, tame (dec3 f).
Proof.
  induction f as [|f IH]; cbn [dec3]; [tame|]. apply tame_bind; [apply tame_read_byte|]. intros m.
  repeat match goal with |- tame (if ?c then _ else _) => destruct c end;
  first [ apply tame_decode_xmldoc3 | apply tame_decode_date3 | apply tame_decode_bytearray3
        | apply tame_array3, IH | apply tame_object3, IH
        | apply tame_bind; [apply tame_read_u29|intros; tame]
        | apply tame_bind; [apply tame_decode_string3|intros; tame] | solve [tame] ].
Qed.

Theorem tame_dec0 : forall f, tame (dec0 f).
Proof.
  induction f as [|f IH]; cbn [dec0]; [tame|]. apply tame_bind; [apply tame_read_byte|]. intros m.
  repeat match goal with |- tame (if ?c then _ else _) => destruct c end;
  try (unfold decode_string0, decode_longstring0, decode_date0, read_byte; solve [tame]).
  - apply tame_bind; [apply tame_object0, IH|]. intros; tame.
  - unfold decode_reference0. apply tame_bind; [tame|]. intros z d.
    destruct (len (d_ref0 d) <? z), (z =? len (d_ref0 d)); cbn; (split; [apply step_refl|discriminate]).
  - unfold decode_ecma0. apply tame_bind; [tame|]. intros. apply tame_bind; [apply tame_object0, IH|intros; tame].
  - unfold decode_strict0. tame. apply tame_loop_n, IH.
  - unfold decode_typed0. apply tame_bind; [tame|]. intros. apply tame_bind; [unfold decode_string0; tame|]. intros.
    apply tame_bind; [apply tame_object0, IH|intros; tame].
  - apply tame_dec3.
Qed.
