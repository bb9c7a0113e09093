(** Decoding from a source that returns its last bytes together with its final error. *)
From Verif Require Import Base.Go Base.GoFacts Base.IO Base.Float64 Proofs.IOFacts
  Model.AmfTypes Model.Amf3 Model.Amf0 Spec.Amf Proofs.AmfFacts Proofs.Amf0Enc Proofs.Amf0RT Proofs.AmfTerm Proofs.AmfTame Proofs.Amf0More Proofs.Amf3RT Proofs.Amf3More Proofs.AmfHeap.

Definition wr (d : dstate) : dstate := set_r (with_error (d_r d)) d.

Definition lost {A} (d : dstate) (x : dstate * res A) : Prop := snd x = Err (e_err (r_end (d_r d))).

Definition wsim {A} (m : Dm A) : Prop := tame m /\ forall d, r_with (d_r d) = false ->
  r_with (d_r (fst (m d))) = false /\
  (m (wr d) = (wr (fst (m d)), snd (m d)) \/ (r_rest (d_r (fst (m d))) = [] /\ lost d (m (wr d)))).

Lemma step_end d d' : step_ok d d' -> r_end (d_r d') = r_end (d_r d).
Proof. intros (_ & _ & _ & _ & _ & H & _). exact H. Qed.
Lemma step_empty d d' : step_ok d d' -> r_rest (d_r d) = [] -> r_rest (d_r d') = [].
Proof.
  intros (_ & _ & _ & _ & _ & _ & [x Hx]) E. rewrite E in Hx. cbn [rev] in Hx.
  destruct (r_rest (d_r d')) as [|b s]; [reflexivity|]. cbn [rev] in Hx.
  apply (f_equal (@length Z)) in Hx. rewrite !app_length in Hx. cbn [length] in Hx. lia.
Qed.

Lemma wsim_bind {A B} (m : Dm A) (k : A -> Dm B) : wsim m -> (forall a, wsim (k a)) -> wsim (dbind m k).
Proof.
  intros [Tm Wm'] Hk. split; [apply tame_bind; [exact Tm|intros; apply Hk]|].
  intros d Hd. destruct (Wm' d Hd) as [H1 H2]. destruct (Tm d) as [St _].
  unfold dbind. destruct (m d) as [d1 [a|e| |]] eqn:E; cbn [fst snd] in *.
  - destruct (Hk a) as [Tk Wk]. destruct (Wk d1 H1) as [K1 K2]. split; [exact K1|].
    destruct H2 as [H2|[H2 H3]].
    + rewrite H2. destruct K2 as [K2|[K2 K3]]; [left; exact K2|right; split; [exact K2|]].
      unfold lost in *. rewrite K3, (step_end _ _ St). reflexivity.
    + right. split; [exact (step_empty _ _ (proj1 (Tk d1)) H2)|]. unfold lost in *.
      destruct (m (wr d)) as [d2 r2]; cbn [snd] in H3; subst r2. reflexivity.
  - split; [exact H1|]. destruct H2 as [H2|[H2 H3]]; [left; rewrite H2; reflexivity|right; split; [exact H2|]].
    unfold lost in *. destruct (m (wr d)) as [d2 r2]; cbn [snd] in H3; subst r2. reflexivity.
  - split; [exact H1|]. destruct H2 as [H2|[H2 H3]]; [left; rewrite H2; reflexivity|right; split; [exact H2|]].
    unfold lost in *. destruct (m (wr d)) as [d2 r2]; cbn [snd] in H3; subst r2. reflexivity.
  - split; [exact H1|]. destruct H2 as [H2|[H2 H3]]; [left; rewrite H2; reflexivity|right; split; [exact H2|]].
    unfold lost in *. destruct (m (wr d)) as [d2 r2]; cbn [snd] in H3; subst r2. reflexivity.
Qed.

(** Steps that do not touch the reader. *)
Lemma wsim_state {A} (m : Dm A) : tame m ->
  (forall d r, m (set_r r d) = (set_r r (fst (m d)), snd (m d))) -> (forall d, d_r (fst (m d)) = d_r d) -> wsim m.
Proof.
  intros Ht H H2. split; [exact Ht|]. intros d Hd. rewrite H2. split; [exact Hd|]. left.
  unfold wr at 1. rewrite H. unfold wr. rewrite H2. reflexivity.
Qed.
Lemma wsim_ret {A} (a : A) : wsim (dret a).
Proof. apply wsim_state; [apply tame_ret|reflexivity|reflexivity]. Qed.
Lemma wsim_fail {A} e : e <> EEof -> wsim (@dfail A e).
Proof. intros He. apply wsim_state; [apply tame_fail, He|reflexivity|reflexivity]. Qed.
Lemma wsim_fuel {A} : wsim (fun d => (d, @OutOfFuel A)).
Proof. apply wsim_state; [apply tame_fuel|reflexivity|reflexivity]. Qed.
Lemma wsim_alloc : wsim alloc. Proof. apply wsim_state; [apply tame_alloc|reflexivity|reflexivity]. Qed.
Lemma wsim_obj_set l k v : wsim (obj_set l k v). Proof. apply wsim_state; [apply tame_obj_set|reflexivity|reflexivity]. Qed.
Lemma wsim_ref0_push v : wsim (ref0_push v). Proof. apply wsim_state; [apply tame_ref0_push|reflexivity|reflexivity]. Qed.
Lemma wsim_obj3_push v : wsim (obj3_push v). Proof. apply wsim_state; [apply tame_obj3_push|reflexivity|reflexivity]. Qed.
Lemma wsim_str3_push s : wsim (fun d => (set_str3 (d_str3 d ++ [s]) d, Ok s)).
Proof. apply wsim_state; [apply tame_str3_push|reflexivity|reflexivity]. Qed.
Lemma wsim_trait3_push s : wsim (fun d => (set_trait3 (d_trait3 d ++ [s]) d, Ok s)).
Proof. apply wsim_state; [apply tame_trait3_push|reflexivity|reflexivity]. Qed.
Lemma wsim_obj3_ref v : wsim (obj3_ref v).
Proof.
  apply wsim_state; [apply tame_obj3_ref| |]; unfold obj3_ref; intros d; [intros r; cbn [set_r d_obj3]|]; destruct (len (d_obj3 d) <=? v); reflexivity.
Qed.
Lemma wsim_str3_ref v : wsim (fun d => if len (d_str3 d) <=? v then (d, Err EOther) else (d, Ok (nth (Z.to_nat v) (d_str3 d) []))).
Proof.
  apply wsim_state; [apply tame_id2; intros; discriminate| |]; intros d; [intros r; cbn [set_r d_str3]|]; destruct (len (d_str3 d) <=? v); reflexivity.
Qed.
Lemma wsim_trait3_ref v x : wsim (fun d => if len (d_trait3 d) <=? v then (d, Err EOther) else (d, Ok (nth (Z.to_nat v) (d_trait3 d) x))).
Proof.
  apply wsim_state; [apply tame_id2; intros; discriminate| |]; intros d; [intros r; cbn [set_r d_trait3]|]; destruct (len (d_trait3 d) <=? v); reflexivity.
Qed.

(** Reads. *)
Lemma read_with n r : r_with r = false -> r_with (fst (read n r)) = false /\
  (read n (with_error r) = (with_error (fst (read n r)), snd (read n r)) \/
   (r_rest (fst (read n r)) = [] /\ snd (read n (with_error r)) = Err (e_err (r_end r)))).
Proof.
  intros Hw. unfold read, with_error, r_rest. cbn [r_chunks r_end r_with]. destruct (r_chunks r) as [|c cs] eqn:E.
  - destruct ((n =? 0) && negb (e_zero (r_end r))); cbn [fst snd]; (split; [exact Hw|left; rewrite E; reflexivity]).
  - destruct (n =? 0); [cbn [fst snd]; split; [exact Hw|left; rewrite E; reflexivity]|].
    destruct (len c <=? n); cbn [fst snd r_chunks r_end r_with]; (split; [exact Hw|]).
    + destruct cs; [right; split; reflexivity|left; reflexivity].
    + left; reflexivity.
Qed.
Lemma wr_set_r r d : wr (set_r r d) = set_r (with_error r) (wr d).
Proof. destruct d. reflexivity. Qed.

Lemma wsim_read_bytes n : wsim (read_bytes n).
Proof.
  split; [apply tame_read_bytes|]. intros d Hd. destruct (read_with n (d_r d) Hd) as [H1 H2].
  unfold read_bytes, lost. change (d_r (wr d)) with (with_error (d_r d)).
  destruct (read n (d_r d)) as [r' x] eqn:E; cbn [fst snd] in *.
  split; [destruct x; exact H1|]. destruct H2 as [H2|[H2 H3]].
  - left. rewrite H2. destruct x; cbn [fst snd]; rewrite wr_set_r; reflexivity.
  - right. split; [destruct x; exact H2|]. destruct (read n (with_error (d_r d))) as [r2 x2]; cbn [snd] in H3; subst x2. reflexivity.
Qed.
Lemma wsim_read_into n : wsim (read_into n).
Proof.
  split; [apply tame_read_into|]. intros d Hd. destruct (read_with n (d_r d) Hd) as [H1 H2].
  unfold read_into, lost. change (d_r (wr d)) with (with_error (d_r d)).
  destruct (read n (d_r d)) as [r' x] eqn:E; cbn [fst snd] in *.
  split; [destruct x; exact H1|]. destruct H2 as [H2|[H2 H3]].
  - left. rewrite H2. destruct x; cbn [fst snd]; rewrite wr_set_r; reflexivity.
  - right. split; [destruct x; exact H2|]. destruct (read n (with_error (d_r d))) as [r2 x2]; cbn [snd] in H3; subst x2. reflexivity.
Qed.
Lemma read_full_with n r : read_full n (with_error r) = (with_error (fst (read_full n r)), snd (read_full n r)).
Proof. unfold read_full, with_error. cbn [r_chunks r_end r_with]. destruct (read_full_chunks _ _ _ _). reflexivity. Qed.
Lemma read_full_flag n r : r_with (fst (read_full n r)) = r_with r.
Proof. unfold read_full. destruct (read_full_chunks _ _ _ _). reflexivity. Qed.
Lemma wsim_read_be n : wsim (read_be n).
Proof.
  split; [apply tame_read_be|]. intros d Hd. unfold read_be. change (d_r (wr d)) with (with_error (d_r d)). rewrite read_full_with.
  pose proof (read_full_flag n (d_r d)) as Hf. destruct (read_full n (d_r d)) as [r' x]; cbn [fst snd] in *.
  split; [destruct x; cbn; congruence|]. left. destruct x; cbn [fst snd]; rewrite wr_set_r; reflexivity.
Qed.

Ltac wsim := repeat first
  [ apply wsim_ret | apply wsim_fail; discriminate | apply wsim_fuel
  | apply wsim_read_bytes | apply wsim_read_into | apply wsim_read_be | apply wsim_alloc | apply wsim_obj_set
  | apply wsim_obj3_push | apply wsim_ref0_push | apply wsim_str3_push | apply wsim_trait3_push | apply wsim_obj3_ref
  | apply wsim_str3_ref | apply wsim_trait3_ref
  | assumption
  | apply wsim_bind; [|intros ?]
  | match goal with
    | |- wsim (if ?c then _ else _) => destruct c
    | |- wsim (match ?x with _ => _ end) => destruct x
    end
  | progress cbv zeta ].

Lemma wsim_read_byte : wsim read_byte. Proof. unfold read_byte. wsim. Qed.
Lemma wsim_next b : wsim (next_byte_must_be b). Proof. unfold next_byte_must_be, read_byte. wsim. Qed.
Lemma wsim_read_u29 : wsim read_u29. Proof. unfold read_u29, read_byte. wsim. Qed.
Lemma wsim_decode_u29 : wsim decode_u29.
Proof. unfold decode_u29. apply wsim_bind; [apply wsim_read_u29|]. intros; wsim. Qed.
Lemma wsim_decode_string3 : wsim decode_string3.
Proof. unfold decode_string3. apply wsim_bind; [apply wsim_decode_u29|]. intros [b v]. wsim. Qed.
Lemma wsim_decode_date3 : wsim decode_date3.
Proof.
  unfold decode_date3. apply wsim_bind; [apply wsim_decode_u29|]. intros [b v]. destruct b; [wsim|].
  apply wsim_bind; [|intros; wsim]. split.
  - intros d. destruct (tame_read_be 8 d) as [H1 H2].
    destruct (read_be 8 d) as [d' [x|e| |]]; cbn [fst snd] in *; split; auto; discriminate.
  - intros d Hd. unfold read_be. change (d_r (wr d)) with (with_error (d_r d)). rewrite read_full_with.
    pose proof (read_full_flag 8 (d_r d)) as Hf. destruct (read_full 8 (d_r d)) as [r' x]; cbn [fst snd] in *.
    split; [destruct x; cbn; congruence|]. left. destruct x; cbn [fst snd]; rewrite wr_set_r; reflexivity.
Qed.
Lemma wsim_decode_xmldoc3 : wsim decode_xmldoc3.
Proof. unfold decode_xmldoc3. apply wsim_bind; [apply wsim_decode_u29|]. intros [b v]. wsim. Qed.
Lemma wsim_decode_bytearray3 : wsim decode_bytearray3.
Proof. unfold decode_bytearray3. apply wsim_bind; [apply wsim_decode_u29|]. intros [b v]. wsim. Qed.
Lemma wsim_read_flags f : wsim (read_flags f).
Proof. induction f; cbn [read_flags]; [wsim|]. apply wsim_bind; [apply wsim_read_byte|]. intros. wsim. Qed.
Lemma wsim_loop_n {A} (b : Dm A) f : wsim b -> forall n, wsim (loop_n b f n).
Proof. intros Hb. induction f as [|f IH]; intros n; cbn [loop_n]; wsim. apply IH. Qed.

Section WithDec.
  Variable dec : Dm value.
  Hypothesis Hdec : wsim dec.
  Lemma wsim_ext_named loc fl : forall names p, wsim (ext_named dec loc fl p names).
  Proof. induction names; intros; cbn [ext_named]; wsim; apply IHnames. Qed.
  Lemma wsim_ext_extra loc i fl : forall js, wsim (ext_extra dec loc i fl js).
  Proof. induction js; intros; cbn [ext_extra]; wsim. Qed.
  Lemma wsim_ext_flags loc : forall fs i fields, wsim (ext_flags dec loc i fields fs).
  Proof.
    induction fs; intros; cbn [ext_flags]; [wsim|]. apply wsim_bind; [apply wsim_ext_named|]. intros.
    apply wsim_bind; [|intros; apply IHfs]. destruct (_ =? 0); [wsim|apply wsim_ext_extra].
  Qed.
  Lemma wsim_external f loc fields : wsim (decode_external dec f loc fields).
  Proof. unfold decode_external. apply wsim_bind; [apply wsim_read_flags|]. intros; apply wsim_ext_flags. Qed.
  Lemma wsim_abstract f : wsim (decode_abstract dec f).
  Proof. unfold decode_abstract. apply wsim_bind; [wsim|]. intros. apply wsim_bind; [apply wsim_external|]. intros; wsim. Qed.
  Lemma wsim_async f : wsim (decode_async dec f).
  Proof. unfold decode_async. apply wsim_bind; [apply wsim_abstract|]. intros. apply wsim_bind; [apply wsim_external|]. intros; wsim. Qed.
  Lemma wsim_ack f : wsim (decode_ack dec f).
  Proof. unfold decode_ack. apply wsim_bind; [apply wsim_async|]. intros. apply wsim_bind; [apply wsim_external|]. intros; wsim. Qed.
  Lemma wsim_assoc_loop loc : forall f key, wsim (assoc_loop dec f loc key).
  Proof.
    induction f; intros [|k key]; cbn [assoc_loop]; wsim; try apply wsim_decode_string3. apply IHf.
  Qed.
  Lemma wsim_array3 f : wsim (decode_array3 dec f).
  Proof.
    unfold decode_array3. apply wsim_bind; [apply wsim_decode_u29|]. intros [b v]. destruct b; [wsim|].
    apply wsim_bind; [apply wsim_decode_string3|]. intros. apply wsim_bind; [wsim|]. intros.
    apply wsim_bind; [wsim|]. intros. apply wsim_bind; [apply wsim_assoc_loop|]. intros.
    apply wsim_bind; [apply wsim_loop_n; assumption|]. intros; wsim.
  Qed.
  Lemma wsim_props_loop loc : forall ks, wsim (props_loop dec loc ks).
  Proof. induction ks; cbn [props_loop]; wsim. Qed.
  Lemma wsim_dyn_loop loc : forall f, wsim (dyn_loop dec f loc).
  Proof. induction f; cbn [dyn_loop]; [wsim|]. apply wsim_bind; [apply wsim_decode_string3|]. intros; wsim. Qed.
  Lemma wsim_trait f v : wsim (decode_trait f v).
  Proof.
    unfold decode_trait. destruct (_ =? 0); [wsim|]. cbv zeta. apply wsim_bind; [apply wsim_decode_string3|]. intros.
    apply wsim_bind; [apply wsim_loop_n, wsim_decode_string3|]. intros; wsim.
  Qed.
  Lemma wsim_object3 f : wsim (decode_object3 dec f).
  Proof.
    unfold decode_object3. apply wsim_bind; [apply wsim_decode_u29|]. intros [b v]. destruct b; [wsim|].
    apply wsim_bind; [apply wsim_trait|]. intros t. apply wsim_bind; [wsim|]. intros. destruct (t_ext t).
    - unfold decode_externalizable. repeat (destruct (bytes_eqb _ _)); [| |wsim|wsim];
      (apply wsim_bind; [first [apply wsim_async|apply wsim_ack]|intros; wsim]).
    - apply wsim_bind; [wsim|]. intros. apply wsim_bind; [apply wsim_props_loop|]. intros.
      apply wsim_bind; [destruct (t_dyn t); [apply wsim_dyn_loop|wsim]|]. intros; wsim.
  Qed.
  Lemma wsim_obj_loop loc : forall f, wsim (obj_loop dec f loc).
  Proof.
    induction f; cbn [obj_loop]; [wsim|]. apply wsim_bind; [unfold decode_string0; wsim|]. intros.
    destruct a; [apply wsim_next|]. wsim.
  Qed.
  Lemma wsim_object0 f : wsim (decode_object0 dec f).
  Proof. unfold decode_object0. wsim. apply wsim_obj_loop. Qed.
End WithDec.

Theorem wsim_dec3 : forall f, wsim (dec3 f).
Proof.
  induction f as [|f IH]; cbn [dec3]; [wsim|]. apply wsim_bind; [apply wsim_read_byte|]. intros m.
  repeat match goal with |- wsim (if ?c then _ else _) => destruct c end;
  first [ apply wsim_decode_xmldoc3 | apply wsim_decode_date3 | apply wsim_decode_bytearray3
        | apply wsim_array3, IH | apply wsim_object3, IH
        | apply wsim_bind; [apply wsim_read_u29|intros; wsim]
        | apply wsim_bind; [apply wsim_decode_string3|intros; wsim] | solve [wsim] ].
Qed.

Theorem wsim_dec0 : forall f, wsim (dec0 f).
Proof.
  induction f as [|f IH]; cbn [dec0]; [wsim|]. apply wsim_bind; [apply wsim_read_byte|]. intros m.
  repeat match goal with |- wsim (if ?c then _ else _) => destruct c end;
  try (unfold decode_string0, decode_longstring0, decode_date0, read_byte; solve [wsim]).
  - apply wsim_bind; [apply wsim_object0, IH|]. intros; wsim.
  - unfold decode_reference0. apply wsim_bind; [wsim|]. intros z. apply wsim_state.
    + intros d. destruct (len (d_ref0 d) <? z), (z =? len (d_ref0 d)); cbn; (split; [apply step_refl|discriminate]).
    + intros d r. cbn [set_r d_ref0]. destruct (len (d_ref0 d) <? z), (z =? len (d_ref0 d)); reflexivity.
    + intros d. destruct (len (d_ref0 d) <? z), (z =? len (d_ref0 d)); reflexivity.
  - unfold decode_ecma0. apply wsim_bind; [wsim|]. intros. apply wsim_bind; [apply wsim_object0, IH|intros; wsim].
  - unfold decode_strict0. wsim. apply wsim_loop_n, IH.
  - unfold decode_typed0. apply wsim_bind; [wsim|]. intros. apply wsim_bind; [unfold decode_string0; wsim|]. intros.
    apply wsim_bind; [apply wsim_object0, IH|intros; wsim].
  - apply wsim_dec3.
Qed.

(** * Which encoded AMF0 values survive such a source *)
Definition same {A} (m : Dm A) (d : dstate) : Prop := m (wr d) = (wr (fst (m d)), snd (m d)).

Lemma wr_ok {A} (m : Dm A) d d1 a : wsim m -> m d = (d1, Ok a) -> r_with (d_r d) = false -> r_rest (d_r d1) <> [] ->
  m (wr d) = (wr d1, Ok a) /\ r_with (d_r d1) = false /\ r_end (d_r d1) = r_end (d_r d).
Proof.
  intros [T W] E Hd Hr. destruct (W d Hd) as [H1 H2]. destruct (T d) as [St _]. rewrite E in *. cbn [fst snd] in *.
  split; [|split; [exact H1|exact (step_end _ _ St)]]. destruct H2 as [H2|[H2 _]]; [exact H2|congruence].
Qed.
Lemma lost_step {A B} (m : Dm A) (k : A -> Dm B) d d1 a : m (wr d) = (wr d1, Ok a) -> r_end (d_r d1) = r_end (d_r d) ->
  lost d1 (k a (wr d1)) -> lost d (dbind m k (wr d)).
Proof. intros H1 H2 H3. unfold lost. rewrite (dbind_ok _ _ _ _ _ H1), H3, H2. reflexivity. Qed.
Lemma lost_now {A B} (m : Dm A) (k : A -> Dm B) d : lost d (m (wr d)) -> lost d (dbind m k (wr d)).
Proof. unfold lost, dbind. destruct (m (wr d)) as [d1 x]. cbn [snd]. intros ->. reflexivity. Qed.
Lemma same_bind {A B} (m : Dm A) (k : A -> Dm B) d : same m d -> (forall d1 a, m d = (d1, Ok a) -> same (k a) d1) -> same (dbind m k) d.
Proof.
  intros H1 H2. unfold same, dbind in *. rewrite H1. destruct (m d) as [d1 [a|e| |]]; cbn [fst snd]; try reflexivity.
  exact (H2 d1 a eq_refl).
Qed.
Lemma same_ret {A} (a : A) d : same (dret a) d. Proof. reflexivity. Qed.
Lemma same_read_be n d : r_with (d_r d) = false -> same (read_be n) d.
Proof.
  intros Hd. unfold same, read_be. change (d_r (wr d)) with (with_error (d_r d)). rewrite read_full_with.
  destruct (read_full n (d_r d)) as [r' x]. destruct x; cbn [fst snd]; rewrite wr_set_r; reflexivity.
Qed.

Lemma step_be {B} (k : Z -> Dm B) d s rest e n : n = len s -> 0 < len s -> d_r d = contr (s ++ rest) e ->
  dbind (read_be n) k (wr d) = k (be_val s) (wr (set_r (contr rest e) d)).
Proof.
  intros -> Hs Hr. assert (Hw : r_with (d_r d) = false) by (rewrite Hr; reflexivity).
  pose proof (same_read_be (len s) d Hw) as H. unfold same in H. rewrite (read_be_contr d s rest e Hr Hs) in H. exact (dbind_ok _ _ _ _ _ H).
Qed.
Lemma step_byte {B} (k : Z -> Dm B) d x rest e : d_r d = contr (x :: rest) e -> rest <> [] ->
  dbind read_byte k (wr d) = k x (wr (set_r (contr rest e) d)).
Proof.
  intros Hr Hn. destruct (wr_ok _ _ _ _ wsim_read_byte (read_byte_contr d x rest e Hr) ltac:(rewrite Hr; reflexivity)) as (H & _).
  - cbn [d_r set_r]. rewrite contr_rest. exact Hn.
  - exact (dbind_ok _ _ _ _ _ H).
Qed.
Lemma lost_bytes n d s e : n = len s -> 0 < len s -> d_r d = contr s e -> lost d (read_bytes n (wr d)).
Proof.
  intros -> Hs Hr. unfold lost, read_bytes. change (d_r (wr d)) with (with_error (d_r d)). rewrite Hr.
  unfold read, with_error, contr. destruct s as [|x s]; [exfalso; change (len (@nil Z)) with 0 in Hs; lia|]. cbn [r_chunks r_end r_with].
  replace (len (x :: s) =? 0) with false by lia. rewrite Z.leb_refl. reflexivity.
Qed.
Lemma lost_byte d x e : d_r d = contr [x] e -> lost d (read_byte (wr d)).
Proof. intros Hr. unfold read_byte. apply lost_now. apply (lost_bytes 1 d [x] e); [reflexivity|reflexivity|exact Hr]. Qed.

Lemma lost_wr {A} d r (x : dstate * res A) : r_end r = r_end (d_r d) -> lost (set_r r d) x -> lost d x.
Proof. unfold lost. cbn [d_r set_r]. intros ->. exact id. Qed.

(** Strings. *)
Lemma string0_lost d s e : d_r d = contr (wire_utf8 s) e -> 0 < len s <= 65535 -> lost d (decode_string0 (wr d)).
Proof.
  intros Hr Hs. unfold decode_string0. erewrite (step_be _ d (be16 (len s)) s e) by (reflexivity || exact Hr).
  rewrite be_val_be16, Z.mod_small by lia. apply (lost_wr _ (contr s e)); [rewrite Hr; reflexivity|].
  apply (lost_bytes _ _ s e); [reflexivity|lia|reflexivity].
Qed.
Lemma longstring0_lost d s e : d_r d = contr (wire_utf8_long s) e -> 0 < len s < 4294967296 -> lost d (decode_longstring0 (wr d)).
Proof.
  intros Hr Hs. unfold decode_longstring0. erewrite (step_be _ d (be32 (len s)) s e) by (reflexivity || exact Hr).
  rewrite be_val_be32, Z.mod_small by lia. apply (lost_wr _ (contr s e)); [rewrite Hr; reflexivity|].
  apply (lost_bytes _ _ s e); [reflexivity|lia|reflexivity].
Qed.
Lemma wsim_string0 : wsim decode_string0.
Proof. unfold decode_string0. wsim. Qed.

(** Objects end in a marker byte, which is lost. *)
Lemma obj_loop_lost fs loc : Forall field_ok fs ->
  forall fuel k d e, (length (wire_fields fs) < fuel)%nat -> (length fs < k)%nat ->
  d_r d = contr (wire_fields fs ++ [0; 0; 9]) e -> lost d (obj_loop (dec0 fuel) k loc (wr d)).
Proof.
  induction fs as [|[key t] fs IH]; intros Hok fuel k d e Hf Hk Hr; (destruct k as [|k]; [cbn [length] in Hk; lia|]).
  - cbn [wire_fields map concat app] in Hr. cbn [obj_loop].
    change [0; 0; 9] with (wire_utf8 [] ++ [9]) in Hr.
    assert (Es := decode_string0_contr d [] [9] e Hr ltac:(rewrite len_nil; lia) ltac:(right; left; discriminate)).
    destruct (wr_ok _ _ _ _ wsim_string0 Es ltac:(rewrite Hr; reflexivity) ltac:(discriminate)) as (H1 & _ & H3).
    eapply lost_step; [exact H1|exact H3|]. unfold next_byte_must_be. apply lost_now, (lost_byte _ 9 e). reflexivity.
  - inversion Hok as [|? ? [[Hkb Hkl] Hot] Hol]; subst. cbn [fst snd] in *.
    unfold wire_fields in Hf, Hr. cbn [map concat fst snd] in Hf, Hr. fold (wire_fields fs) in Hf, Hr.
    rewrite <- !app_assoc in Hr. rewrite !app_length in Hf. cbn [obj_loop].
    assert (Hne : key <> []) by (intros ->; unfold len in Hkl; cbn [length] in Hkl; lia).
    assert (Es := decode_string0_contr d key (wire0 t ++ wire_fields fs ++ [0; 0; 9]) e Hr ltac:(lia) (or_introl Hne)).
    assert (N1 : forall a b : bytes, b <> [] -> a ++ b <> []) by (intros a b Hb X; apply app_eq_nil in X; tauto).
    destruct (wr_ok _ _ _ _ wsim_string0 Es ltac:(rewrite Hr; reflexivity)) as (H1 & _ & H3).
    { cbn [d_r set_r]. rewrite contr_rest. apply N1, N1. discriminate. }
    eapply lost_step; [exact H1|exact H3|]. clear H1 H3.
    destruct key as [|c key]; [congruence|].
    destruct (dec0_wire t Hot fuel (set_r (contr (wire0 t ++ wire_fields fs ++ [0; 0; 9]) e) d) (wire_fields fs ++ [0; 0; 9]) e ltac:(lia) eq_refl) as (d1 & v & hs & E1 & R1 & _).
    { left. apply N1. discriminate. }
    destruct (wr_ok _ _ _ _ (wsim_dec0 fuel) E1 ltac:(reflexivity)) as (H1 & _ & H3).
    { rewrite R1, contr_rest. apply N1. discriminate. }
    eapply lost_step; [exact H1|exact H3|].
    set (d2 := set_heap (upd_nth loc (map_set (c :: key) v) (d_heap d1)) d1).
    eapply (lost_step _ _ d1 d2 tt); [reflexivity|reflexivity|].
    apply (IH Hol fuel k d2 e); [lia|cbn [length] in Hk; lia|exact R1].
Qed.
Lemma object0_lost fs : Forall field_ok fs -> forall fuel k d e, (length (wire_fields fs) < fuel)%nat -> (length fs < k)%nat ->
  d_r d = contr (wire_fields fs ++ [0; 0; 9]) e -> lost d (decode_object0 (dec0 fuel) k (wr d)).
Proof.
  intros Hok fuel k d e Hf Hk Hr. unfold decode_object0.
  eapply (lost_step _ _ d (set_heap (d_heap d ++ [[]]) d)); [reflexivity|reflexivity|].
  eapply (lost_step _ _ _ (set_ref0 (d_ref0 d ++ [VObj (length (d_heap d))]) (set_heap (d_heap d ++ [[]]) d))); [reflexivity|reflexivity|].
  apply lost_now. eapply obj_loop_lost; eassumption.
Qed.

Lemma same_byte d x rest e : d_r d = contr (x :: rest) e -> rest <> [] -> same read_byte d.
Proof.
  intros Hr Hn. unfold same. rewrite (read_byte_contr d x rest e Hr). cbn [fst snd].
  apply (wr_ok _ _ _ _ wsim_read_byte (read_byte_contr d x rest e Hr) ltac:(rewrite Hr; reflexivity)).
  cbn [d_r set_r]. rewrite contr_rest. exact Hn.
Qed.

Definition W0 (t : tree) : Prop := ok0 t -> forall fuel d e, (length (wire0 t) < fuel)%nat -> d_r d = contr (wire0 t) e ->
  if ends_number t then same (dec0 fuel) d else lost d (dec0 fuel (wr d)).

Lemma arr_with l : Forall W0 l -> Forall ok0 l ->
  forall fuel k d e, (length (concat (map wire0 l)) < fuel)%nat -> (length l <= k)%nat ->
  d_r d = contr (concat (map wire0 l)) e ->
  if last (map ends_number l) true then same (loop_n (dec0 fuel) k (len l)) d else lost d (loop_n (dec0 fuel) k (len l) (wr d)).
Proof.
  induction l as [|t l IH]; intros HW Hok fuel k d e Hf Hk Hr.
  - cbn [map last]. destruct k; reflexivity.
  - inversion HW as [|? ? HWt HWl]; inversion Hok as [|? ? Hot Hol]; subst. destruct k as [|k]; [cbn [length] in Hk; lia|].
    cbn [map concat] in Hf, Hr. rewrite app_length in Hf.
    assert (El : loop_n (dec0 fuel) (S k) (len (t :: l)) = d* x := dec0 fuel in d* xs := loop_n (dec0 fuel) k (len l) in dret (x :: xs)).
    { cbn [loop_n]. pose proof (len_nonneg l). replace (len (t :: l) <=? 0) with false by (rewrite len_cons; lia).
      replace (len (t :: l) - 1) with (len l) by (rewrite len_cons; lia). reflexivity. }
    rewrite El. destruct l as [|t2 l].
    + cbn [map concat] in Hr. rewrite app_nil_r in Hr. specialize (HWt Hot fuel d e ltac:(lia) Hr). cbn [map last].
      destruct (ends_number t); [|apply lost_now; exact HWt].
      apply same_bind; [exact HWt|]. intros d1 a _. apply same_bind; [destruct k; reflexivity|]. intros; apply same_ret.
    + assert (Hne : concat (map wire0 (t2 :: l)) <> []).
      { inversion Hol as [|? ? Ho2 _]; subst. pose proof (wire0_nonempty t2 Ho2). cbn [map concat]. intros X. apply app_eq_nil in X. destruct X as [X _]. rewrite X in H. cbn in H. lia. }
      destruct (dec0_wire t Hot fuel d (concat (map wire0 (t2 :: l))) e ltac:(lia) Hr) as (d1 & v & hs & E1 & R1 & _); [left; exact Hne|].
      destruct (wr_ok _ _ _ _ (wsim_dec0 fuel) E1 ltac:(rewrite Hr; reflexivity)) as (H1 & _ & H3); [rewrite R1, contr_rest; exact Hne|].
      specialize (IH HWl Hol fuel k d1 e ltac:(lia) ltac:(cbn [length] in *; lia) R1).
      change (last (map ends_number (t :: t2 :: l)) true) with (last (map ends_number (t2 :: l)) true).
      destruct (last (map ends_number (t2 :: l)) true).
      * apply same_bind; [unfold same; rewrite E1; exact H1|]. intros d1' a Ea. rewrite E1 in Ea. injection Ea as <- <-.
        apply same_bind; [exact IH|]. intros; apply same_ret.
      * eapply lost_step; [exact H1|exact H3|]. apply lost_now. exact IH.
Qed.

Lemma same_number d bits e fuel : 0 <= bits < 18446744073709551616 -> d_r d = contr (0 :: be64 bits) e -> same (dec0 (S fuel)) d.
Proof.
  intros Hb Hr. unfold same. pose proof Hr as Hr'. rewrite <- (app_nil_r (be64 bits)) in Hr'. rewrite (dec0_number d bits [] e fuel Hb Hr').
  cbn [fst snd]. cbn [dec0]. erewrite step_byte by (exact Hr || discriminate). cbn [Z.eqb].
  erewrite (step_be _ _ (be64 bits) [] e) by (reflexivity || (rewrite app_nil_r; reflexivity)).
  rewrite be_val_be64, Z.mod_small by exact Hb. reflexivity.
Qed.

Lemma bytes_same s : forall fuel k d e, (length s <= k)%nat ->
  d_r d = contr (concat (map (fun b => 0 :: be64 (f64_of_Z b)) s)) e -> same (loop_n (dec0 (S fuel)) k (len s)) d.
Proof.
  induction s as [|b s IH]; intros fuel k d e Hk Hr; [destruct k; reflexivity|]. destruct k as [|k]; [cbn [length] in Hk; lia|].
  cbn [map concat] in Hr.
  assert (El : loop_n (dec0 (S fuel)) (S k) (len (b :: s)) = d* x := dec0 (S fuel) in d* xs := loop_n (dec0 (S fuel)) k (len s) in dret (x :: xs)).
  { cbn [loop_n]. pose proof (len_nonneg s). replace (len (b :: s) <=? 0) with false by (rewrite len_cons; lia).
    replace (len (b :: s) - 1) with (len s) by (rewrite len_cons; lia). reflexivity. }
  rewrite El. pose proof Hr as Hr2. cbn [app] in Hr2. pose proof (dec0_number d _ _ e fuel (f64_of_Z_range b) Hr2) as E1.
  apply same_bind.
  - destruct s as [|b2 s].
    + cbn [map concat] in Hr. rewrite app_nil_r in Hr. eapply same_number; [apply f64_of_Z_range|exact Hr].
    + unfold same. rewrite E1. cbn [fst snd]. apply (wr_ok _ _ _ _ (wsim_dec0 (S fuel)) E1 ltac:(rewrite Hr; reflexivity)).
      cbn [d_r set_r]. rewrite contr_rest. discriminate.
  - intros d1 a Ea. rewrite E1 in Ea. injection Ea as <- <-. apply same_bind; [|intros; apply same_ret].
    apply (IH fuel k _ e); [cbn [length] in Hk; lia|reflexivity].
Qed.

Theorem dec0_with t : W0 t.
Proof.
  induction t as [|b|b|w z|w z|s|s|s|l IH|fs IH|ty fs IH|] using tree_ind';
    intros Hok [|fuel] d e Hf Hr; cbn [ok0] in Hok; try contradiction; try (exfalso; lia);
    cbn [wire0] in Hr, Hf.
  - cbn [ends_number dec0]. apply lost_now. eapply lost_byte; exact Hr.
  - cbn [ends_number dec0]. unfold lost. erewrite step_byte by (exact Hr || discriminate). cbn [Z.eqb orb Pos.eqb].
    change (lost d (dbind read_byte (fun b0 => dret (VBool (b0 =? 1))) (wr (set_r (contr [if b then 1 else 0] e) d)))).
    apply (lost_wr _ (contr [if b then 1 else 0] e)); [rewrite Hr; reflexivity|]. apply lost_now. eapply lost_byte. reflexivity.
  - cbn [ends_number]. eapply same_number; eassumption.
  - cbn [ends_number]. eapply same_number; [apply f64_of_Z_range|exact Hr].
  - cbn [ends_number]. eapply same_number; [apply f64_of_Z_range|exact Hr].
  - destruct Hok as [_ Hlen]. destruct s as [|c s].
    + change (len [] <=? 65535) with true in Hr. cbn iota in Hr. cbn [ends_number dec0]. apply same_bind.
      * eapply same_byte; [exact Hr|discriminate].
      * intros d1 a Ea. erewrite read_byte_contr in Ea by exact Hr. injection Ea as <- <-. cbn [Z.eqb orb Pos.eqb].
        apply same_bind; [|intros; apply same_ret]. unfold decode_string0. apply same_bind; [apply same_read_be; reflexivity|].
        intros d1 a Ea. change 2 with (len (be16 0)) in Ea. erewrite (read_be_contr _ (be16 0) [] e) in Ea; [|reflexivity|reflexivity].
        injection Ea as <- <-. unfold same, read_bytes. change (d_r (wr ?x)) with (with_error (d_r x)). cbn [d_r set_r with_error contr r_chunks r_end r_with].
        unfold read. cbn [r_chunks r_end r_with]. change (be_val (be16 0)) with 0. change (0 =? 0) with true. cbn [andb].
        destruct e as [[] er]; reflexivity.
    + change (ends_number (TStr (c :: s))) with false. cbn iota. pose proof (len_cons c s) as Hc. pose proof (len_nonneg s) as Hs0.
      unfold lost. cbn [dec0]. destruct (len (c :: s) <=? 65535) eqn:El.
      * erewrite step_byte by (exact Hr || discriminate). cbn [Z.eqb orb Pos.eqb].
        match goal with |- snd ?x = _ => change (lost d x) end. apply (lost_wr _ (contr (wire_utf8 (c :: s)) e)); [rewrite Hr; reflexivity|].
        apply lost_now. apply (string0_lost _ (c :: s) e); [reflexivity|lia].
      * erewrite step_byte by (exact Hr || discriminate). cbn [Z.eqb orb Pos.eqb].
        match goal with |- snd ?x = _ => change (lost d x) end. apply (lost_wr _ (contr (wire_utf8_long (c :: s)) e)); [rewrite Hr; reflexivity|].
        apply lost_now. apply (longstring0_lost _ (c :: s) e); [reflexivity|lia].
  - destruct Hok as [_ Hlen]. rewrite flat_map_concat in Hf, Hr. cbn [length] in Hf. rewrite app_length in Hf.
    cbn [ends_number dec0]. apply same_bind.
    + eapply same_byte; [exact Hr|discriminate].
    + intros d1 a Ea. erewrite read_byte_contr in Ea by exact Hr. injection Ea as <- <-. cbn [Z.eqb orb Pos.eqb]. unfold decode_strict0.
      apply same_bind; [apply same_read_be; reflexivity|]. intros d1 a Ea. change 4 with (len (be32 (len s))) in Ea.
      erewrite read_be_contr in Ea; [|reflexivity|reflexivity]. injection Ea as <- <-.
      rewrite be_val_be32, Z.mod_small by (pose proof (len_nonneg s); lia).
      apply same_bind; [reflexivity|]. intros d1 a Ea. injection Ea as <- <-. apply same_bind; [|intros; apply same_ret].
      assert (Hc : (length s <= length (concat (map (fun b => 0%Z :: be64 (f64_of_Z b)) s)))%nat).
      { clear. induction s; cbn [map concat length]; [lia|]. rewrite app_length. cbn [length]. lia. }
      destruct fuel as [|fuel]; [cbn [be32 length] in Hf; lia|]. eapply (bytes_same s fuel (S fuel) _ e); [cbn [be32 length] in Hf; lia|reflexivity].
  - destruct Hok as [Hlen Hall]. apply all_of_map in Hall. cbn [length] in Hf. rewrite app_length in Hf. cbn [be32 length] in Hf.
    pose proof (concat_wire_length l Hall) as Hcl.
    pose proof (arr_with l IH Hall fuel fuel (set_ref0 (d_ref0 d ++ [VArr []]) (set_r (contr (concat (map wire0 l)) e) d)) e ltac:(lia) ltac:(lia) eq_refl) as HA.
    cbn [ends_number]. destruct (last (map ends_number l) true).
    + cbn [dec0]. apply same_bind.
      * eapply same_byte; [exact Hr|discriminate].
      * intros d1 a Ea. erewrite read_byte_contr in Ea by exact Hr. injection Ea as <- <-. cbn [Z.eqb orb Pos.eqb]. unfold decode_strict0.
        apply same_bind; [apply same_read_be; reflexivity|]. intros d1 a Ea. change 4 with (len (be32 (len l))) in Ea.
        erewrite read_be_contr in Ea; [|reflexivity|reflexivity]. injection Ea as <- <-.
        rewrite be_val_be32, Z.mod_small by (pose proof (len_nonneg l); lia).
        apply same_bind; [reflexivity|]. intros d1 a Ea. injection Ea as <- <-. apply same_bind; [exact HA|intros; apply same_ret].
    + unfold lost. cbn [dec0]. erewrite step_byte by (exact Hr || discriminate). cbn [Z.eqb orb Pos.eqb]. unfold decode_strict0.
      erewrite (step_be _ _ (be32 (len l)) (concat (map wire0 l)) e) by reflexivity.
      rewrite be_val_be32, Z.mod_small by (pose proof (len_nonneg l); lia).
      match goal with |- snd ?x = _ => change (lost d x) end. apply (lost_wr _ (contr (concat (map wire0 l)) e)); [rewrite Hr; reflexivity|].
      eapply (lost_step _ _ _ (set_ref0 (d_ref0 d ++ [VArr []]) (set_r (contr (concat (map wire0 l)) e) d))); [reflexivity|reflexivity|].
      apply lost_now. exact HA.
  - destruct Hok as [Hnd Hall]. apply all_of_map in Hall. cbn [length] in Hf. rewrite app_length in Hf. fold (wire_fields fs) in Hf, Hr.
    pose proof (wire_fields_length fs) as Hwl. cbn [ends_number]. unfold lost. cbn [dec0].
    erewrite step_byte; [|exact Hr|intros X; apply app_eq_nil in X; destruct X; discriminate]. cbn [Z.eqb orb Pos.eqb].
    match goal with |- snd ?x = _ => change (lost d x) end. apply (lost_wr _ (contr (wire_fields fs ++ [0; 0; 9]) e)); [rewrite Hr; reflexivity|].
    apply lost_now. eapply object0_lost; [exact Hall| | |reflexivity]; cbn [length] in Hf; lia.
  - destruct Hok as (Htb & Htl & Hnd & Hall). apply all_of_map in Hall. cbn [length] in Hf. rewrite !app_length in Hf. fold (wire_fields fs) in Hf, Hr.
    pose proof (wire_fields_length fs) as Hwl. cbn [ends_number]. unfold lost. cbn [dec0].
    erewrite step_byte; [|exact Hr|unfold wire_utf8; discriminate]. cbn [Z.eqb orb Pos.eqb]. unfold decode_typed0.
    match goal with |- snd ?x = _ => change (lost d x) end.
    apply (lost_wr _ (contr (wire_utf8 ty ++ wire_fields fs ++ [0; 0; 9]) e)); [rewrite Hr; reflexivity|].
    set (d1 := set_r (contr (wire_utf8 ty ++ wire_fields fs ++ [0; 0; 9]) e) d).
    eapply (lost_step _ _ _ (set_ref0 (d_ref0 d ++ [VTyped [] None]) d1)); [reflexivity|reflexivity|].
    assert (Es := decode_string0_contr (set_ref0 (d_ref0 d ++ [VTyped [] None]) d1) ty (wire_fields fs ++ [0; 0; 9]) e eq_refl Htl).
    destruct (wr_ok _ _ _ _ wsim_string0 (Es ltac:(right; left; intros X; apply app_eq_nil in X; destruct X; discriminate)) ltac:(reflexivity)) as (H1 & _ & H3).
    { cbn [d_r set_r]. rewrite contr_rest. intros X; apply app_eq_nil in X; destruct X; discriminate. }
    eapply lost_step; [exact H1|exact H3|]. apply lost_now. eapply object0_lost; [exact Hall| | |reflexivity]; cbn [length] in Hf; lia.
Qed.

Lemma fuel_wr d : fuel_for (wr d) = fuel_for d. Proof. reflexivity. Qed.

(** A batch whose last value is lost. *)
Lemma batch0_lost ts t : Forall ok0 ts -> ok0 t -> ends_number t = false -> forall fuel d e, (length ts < fuel)%nat ->
  d_r d = contr (concat (map wire0 ts) ++ wire0 t) e ->
  exists d' vs, batch0 fuel (wr d) = (d', (vs, batch_end e)) /\ extends (d_heap d) (d_heap d') /\
    forall H, extends (d_heap d') H -> Forall2 (unfolds H) vs (map img0 ts).
Proof.
  intros Hts Ht He. induction Hts as [|t1 ts Ht1 _ IH]; intros [|fuel] d e Hf Hr; try (cbn in Hf; lia); cbn [batch0].
  - cbn [map concat app] in Hr.
    pose proof (dec0_with t Ht (fuel_for d) d e ltac:(rewrite (fuel_for_contr _ _ _ Hr); lia) Hr) as HL. rewrite He in HL.
    unfold lost in HL. unfold decode0. rewrite fuel_wr. rewrite Hr in HL. cbn [contr r_end] in HL.
    pose proof (decode0_heap (wr d)) as Hh. unfold decode0 in Hh. rewrite fuel_wr in Hh.
    change (d_heap (wr d)) with (d_heap d) in Hh.
    destruct (dec0 (fuel_for d) (wr d)) as [d1 x]. cbn [fst snd] in *. subst x.
    exists d1, []. split; [unfold batch_end; destruct (e_err e); reflexivity|]. split; [exact Hh|]. intros; constructor.
  - cbn [map concat] in Hr. rewrite <- app_assoc in Hr.
    assert (Hne : concat (map wire0 ts) ++ wire0 t <> []).
    { intros X. apply app_eq_nil in X. destruct X as [_ X]. pose proof (wire0_nonempty t Ht) as Hw. rewrite X in Hw. cbn in Hw. lia. }
    destruct (decode0_wire t1 d (concat (map wire0 ts) ++ wire0 t) e Ht1 Hr (or_introl Hne)) as (d1 & v & E1 & R1 & X1 & U1).
    unfold decode0 in E1 |- *. rewrite fuel_wr.
    destruct (wr_ok _ _ _ _ (wsim_dec0 (fuel_for d)) E1 ltac:(rewrite Hr; reflexivity)) as (H1 & _ & _); [rewrite R1, contr_rest; exact Hne|].
    rewrite H1. cbn [length] in Hf. destruct (IH fuel d1 e ltac:(lia) R1) as (d2 & vs & E2 & X2 & U2). rewrite E2.
    exists d2, (v :: vs). split; [reflexivity|]. split; [eapply extends_trans; eassumption|].
    intros H HH. cbn [map]. constructor; [|apply U2, HH]. apply U1. eapply extends_trans; eassumption.
Qed.

(** AMF3 strings and byte arrays. *)
Lemma lost_into n d s e : n = len s -> 0 < len s -> d_r d = contr s e -> lost d (read_into n (wr d)).
Proof.
  intros -> Hs Hr. unfold lost, read_into. change (d_r (wr d)) with (with_error (d_r d)). rewrite Hr.
  unfold read, with_error, contr. destruct s as [|x s]; [exfalso; change (len (@nil Z)) with 0 in Hs; lia|]. cbn [r_chunks r_end r_with].
  replace (len (x :: s) =? 0) with false by lia. rewrite Z.leb_refl. reflexivity.
Qed.
Lemma blob3_lost m s d e : m = 6 \/ m = 7 \/ m = 11 \/ m = 12 -> 0 < len s < 268435456 ->
  d_r d = contr (m :: wire_u29 (2 * len s + 1) ++ s) e -> lost d (decode3 (wr d)).
Proof.
  intros Hm Hs Hr. unfold decode3. rewrite fuel_wr. unfold fuel_for. cbn [dec3]. generalize (length (r_rest (d_r d))). intros f.
  assert (Hne : s <> []) by (intros ->; unfold len in Hs; cbn [length] in Hs; lia).
  assert (Hne2 : wire_u29 (2 * len s + 1) ++ s <> []) by (intros X; apply app_eq_nil in X; tauto).
  unfold lost. erewrite step_byte by (exact Hr || exact Hne2).
  assert (EU := decode_u29_contr (set_r (contr (wire_u29 (2 * len s + 1) ++ s) e) d) (len s) s e ltac:(lia) eq_refl).
  destruct (wr_ok _ _ _ _ wsim_decode_u29 EU ltac:(reflexivity)) as (H1 & _ & _); [cbn [d_r set_r]; rewrite contr_rest; exact Hne|].
  destruct Hm as [->|[->|[->| ->]]]; cbn [Z.eqb orb Pos.eqb];
  (match goal with |- snd ?x = _ => change (lost d x) end; apply (lost_wr _ (contr s e)); [rewrite Hr; reflexivity|]);
  unfold decode_xmldoc3, decode_bytearray3, decode_string3, lost;
  unfold dbind; rewrite H1; cbn iota; replace (len s =? 0) with false by lia;
  [pose proof (lost_bytes (len s) (set_r (contr s e) d) s e eq_refl ltac:(lia) eq_refl) as HL
  |pose proof (lost_into (len s) (set_r (contr s e) d) s e eq_refl ltac:(lia) eq_refl) as HL ..];
  rewrite set_r_set_r; unfold lost in HL;
  (match type of HL with snd ?x = _ => destruct x as [d2 x2] end); cbn [snd] in HL |- *; rewrite HL; reflexivity.
Qed.
