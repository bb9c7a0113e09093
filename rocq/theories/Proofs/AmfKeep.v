(** AMF3 decoding leaves the AMF0 reference table alone. *)
From Verif Require Import Base.Go Base.GoFacts Base.IO Model.AmfTypes Model.Amf3 Model.Amf0.

Definition kr {A} (m : Dm A) : Prop := forall d, d_ref0 (fst (m d)) = d_ref0 d.
Lemma kr_ok {A} (m : Dm A) d d' a : kr m -> m d = (d', Ok a) -> d_ref0 d' = d_ref0 d.
Proof. intros H E. specialize (H d). rewrite E in H. exact H. Qed.
Lemma kr_same {A} (m : Dm A) : (forall d, d_ref0 (fst (m d)) = d_ref0 d) -> kr m. Proof. intros H. exact H. Qed.
Lemma kr_bind {A B} (m : Dm A) (k : A -> Dm B) : kr m -> (forall a, kr (k a)) -> kr (dbind m k).
Proof. intros H K d. unfold dbind. specialize (H d). destruct (m d) as [d1 [a|x| |]]; cbn [fst] in *; try exact H. rewrite K. exact H. Qed.
Lemma kr_read_bytes n : kr (read_bytes n).
Proof. intros d. unfold read_bytes. destruct (read n (d_r d)) as [r [x|x| |]]; reflexivity. Qed.
Lemma kr_read_into n : kr (read_into n).
Proof. intros d. unfold read_into. destruct (read n (d_r d)) as [r [x|x| |]]; reflexivity. Qed.
Lemma kr_read_be n : kr (read_be n).
Proof. intros d. unfold read_be. destruct (read_full n (d_r d)) as [r [x|x| |]]; reflexivity. Qed.
Lemma kr_ret {A} (a : A) : kr (dret a). Proof. apply kr_same. reflexivity. Qed.
Lemma kr_fail {A} e : kr (@dfail A e). Proof. apply kr_same. reflexivity. Qed.
Lemma kr_fuel {A} : kr (fun d => (d, @OutOfFuel A)). Proof. apply kr_same. reflexivity. Qed.
Lemma kr_if {A} (c : dstate -> bool) (f g : dstate -> res A) : kr (fun d => if c d then (d, f d) else (d, g d)).
Proof. apply kr_same. intros d. cbv beta. destruct (c d); reflexivity. Qed.
Lemma kr_str s : kr (fun d => (set_str3 (d_str3 d ++ [s]) d, Ok s)). Proof. apply kr_same. reflexivity. Qed.
Lemma kr_alloc : kr alloc. Proof. apply kr_same. reflexivity. Qed.
Lemma kr_obj_set l k v : kr (obj_set l k v). Proof. apply kr_same. reflexivity. Qed.
Lemma kr_push v : kr (obj3_push v). Proof. apply kr_same. reflexivity. Qed.
Lemma kr_ref v : kr (obj3_ref v). Proof. unfold obj3_ref. apply kr_if. Qed.
Lemma kr_wrap (m : Dm Z) : kr m -> kr (fun d => match m d with (d', Err _) => (d', Err EOther) | x => x end).
Proof. intros H d. specialize (H d). cbv beta. destruct (m d) as [d1 [a|x| |]]; exact H. Qed.
Lemma kr_trait (t : trait) : kr (fun d => (set_trait3 (d_trait3 d ++ [t]) d, Ok t)). Proof. apply kr_same. reflexivity. Qed.
Ltac kr := repeat first
  [ apply kr_ret | apply kr_fail | apply kr_fuel | apply kr_read_bytes | apply kr_read_into | apply kr_read_be | apply kr_str | apply kr_alloc
  | apply kr_obj_set | apply kr_push | apply kr_ref | apply kr_wrap | apply kr_trait | assumption | apply kr_if
  | match goal with |- kr (dbind _ _) => apply kr_bind; [|intros ?] end
  | match goal with
    | |- kr (if ?c then _ else _) => destruct c
    | |- kr (match ?x with _ => _ end) => destruct x
    end
  | progress cbv zeta ].
Lemma kr_byte : kr read_byte. Proof. unfold read_byte. kr. Qed.
Lemma kr_u29 : kr read_u29. Proof. unfold read_u29, read_byte. kr. Qed.
Lemma kr_du29 : kr decode_u29. Proof. unfold decode_u29. apply kr_bind; [apply kr_u29|intros; kr]. Qed.
Lemma kr_string : kr decode_string3. Proof. unfold decode_string3. apply kr_bind; [apply kr_du29|intros [r v]; kr]. Qed.
Lemma kr_date : kr decode_date3. Proof. unfold decode_date3. apply kr_bind; [apply kr_du29|intros [r v]; kr]. Qed.
Lemma kr_xml : kr decode_xmldoc3. Proof. unfold decode_xmldoc3. apply kr_bind; [apply kr_du29|intros [r v]; kr]. Qed.
Lemma kr_ba : kr decode_bytearray3. Proof. unfold decode_bytearray3. apply kr_bind; [apply kr_du29|intros [r v]; kr]. Qed.
Lemma kr_loop {A} (m : Dm A) : kr m -> forall fuel n, kr (loop_n m fuel n).
Proof. intros H. induction fuel as [|f IH]; intros n; cbn [loop_n]; destruct (n <=? 0); kr. apply IH. Qed.
Lemma kr_flags : forall fuel, kr (read_flags fuel).
Proof. induction fuel as [|f IH]; cbn [read_flags]; kr. apply kr_byte. Qed.
Section KC.
  Variable dec : Dm value.
  Hypothesis HD : kr dec.
  Lemma kr_named loc flags : forall names p, kr (ext_named dec loc flags p names).
  Proof. induction names as [|n l IH]; intros p; cbn [ext_named]; kr. apply IH. Qed.
  Lemma kr_extra loc i flags : forall js, kr (ext_extra dec loc i flags js).
  Proof. induction js as [|j l IH]; cbn [ext_extra]; kr. Qed.
  Lemma kr_ext_flags loc : forall fs i fields, kr (ext_flags dec loc i fields fs).
  Proof. induction fs as [|x l IH]; intros i fields; cbn [ext_flags]; kr; try apply kr_named; try apply kr_extra; try apply IH. Qed.
  Lemma kr_external fuel loc fields : kr (decode_external dec fuel loc fields).
  Proof. unfold decode_external. apply kr_bind; [apply kr_flags|intros; apply kr_ext_flags]. Qed.
  Lemma kr_abstract fuel : kr (decode_abstract dec fuel). Proof. unfold decode_abstract. kr. apply kr_external. Qed.
  Lemma kr_async fuel : kr (decode_async dec fuel). Proof. unfold decode_async. kr; [apply kr_abstract|apply kr_external]. Qed.
  Lemma kr_ack fuel : kr (decode_ack dec fuel). Proof. unfold decode_ack. kr; [apply kr_async|apply kr_external]. Qed.
  Lemma kr_assoc : forall fuel loc key, kr (assoc_loop dec fuel loc key).
  Proof. induction fuel as [|f IH]; intros loc [|c key]; cbn [assoc_loop]; kr; [apply kr_string|apply IH]. Qed.
  Lemma kr_array fuel : kr (decode_array3 dec fuel).
  Proof. unfold decode_array3. apply kr_bind; [apply kr_du29|]. intros [r v]. kr; [apply kr_string|apply kr_assoc|apply kr_loop, HD]. Qed.
  Lemma kr_props loc : forall ks, kr (props_loop dec loc ks).
  Proof. induction ks as [|k ks IH]; cbn [props_loop]; kr. Qed.
  Lemma kr_dyn loc : forall fuel, kr (dyn_loop dec fuel loc).
  Proof. induction fuel as [|f IH]; cbn [dyn_loop]; kr. apply kr_string. Qed.
  Lemma kr_dtrait fuel v : kr (decode_trait fuel v).
  Proof. unfold decode_trait. destruct (Z.land v 1 =? 0); [cbv zeta; apply kr_if|]. cbv zeta. apply kr_bind; [apply kr_string|intros]. apply kr_bind; [apply kr_loop, kr_string|intros]. apply kr_trait. Qed.
  Lemma kr_object fuel : kr (decode_object3 dec fuel).
  Proof.
    unfold decode_object3. apply kr_bind; [apply kr_du29|]. intros [r v]. destruct r; [apply kr_ref|]. apply kr_bind; [apply kr_dtrait|]. intros t. apply kr_bind; [apply kr_push|]. intros u.
    destruct (t_ext t); [unfold decode_externalizable; kr; [apply kr_async|apply kr_ack]|]. kr; [apply kr_props|apply kr_dyn].
  Qed.
End KC.
Lemma kr_dec3 : forall fuel, kr (dec3 fuel).
Proof.
  induction fuel as [|f IH]; cbn [dec3]; [apply kr_fuel|]. apply kr_bind; [apply kr_byte|]. intros m.
  repeat match goal with |- kr (if ?c then _ else _) => destruct c end; kr; first [apply kr_u29|apply kr_string|apply kr_xml|apply kr_date|apply kr_array, IH|apply kr_object, IH|apply kr_ba].
Qed.

Lemma kr_string0 : kr decode_string0. Proof. apply kr_bind; [apply kr_read_be|intros; apply kr_read_bytes]. Qed.
Lemma kr_longstring0 : kr decode_longstring0. Proof. apply kr_bind; [apply kr_read_be|intros; apply kr_read_bytes]. Qed.
Lemma kr_must b : kr (next_byte_must_be b). Proof. apply kr_bind; [apply kr_byte|]. intros m. destruct (m =? b); [apply kr_ret|apply kr_fail]. Qed.
