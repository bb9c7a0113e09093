(** AMF3 decoding never panics, whatever the fuel. *)
From Verif Require Import Base.Go Base.GoFacts Base.IO Model.AmfTypes Model.Amf3 Model.Amf0 Proofs.AmfTerm.

Definition np {A} (m : Dm A) : Prop := forall d, snd (m d) <> Panic.
Lemma np_same {A} (m : Dm A) : (forall d, snd (m d) <> Panic) -> np m. Proof. intros H. exact H. Qed.
Lemma np_bind {A B} (m : Dm A) (k : A -> Dm B) : np m -> (forall a, np (k a)) -> np (dbind m k).
Proof. intros H K d. unfold dbind. specialize (H d). destruct (m d) as [d1 [a|x| |]]; cbn [snd] in *; try discriminate; [apply K|exfalso; apply H; reflexivity]. Qed.
Lemma np_read_bytes n : np (read_bytes n).
Proof. intros d H. destruct (sane_read_bytes false n d) as (_ & H2 & _). destruct (H2 H). discriminate. Qed.
Lemma np_read_into n : np (read_into n).
Proof. intros d H. destruct (sane_read_into false n d) as (_ & H2 & _). destruct (H2 H). discriminate. Qed.
Lemma np_read_be n : 0 < n -> np (read_be n).
Proof. intros Hn d H. destruct (sane_read_be false n d Hn) as (_ & H2 & _). destruct (H2 H). discriminate. Qed.
Lemma np_ret {A} (a : A) : np (dret a). Proof. apply np_same. discriminate. Qed.
Lemma np_fail {A} e : np (@dfail A e). Proof. apply np_same. discriminate. Qed.
Lemma np_fuel {A} : np (fun d => (d, @OutOfFuel A)). Proof. apply np_same. discriminate. Qed.
Lemma np_if {A} (c : dstate -> bool) (f g : dstate -> res A) : (forall d, f d <> Panic) -> (forall d, g d <> Panic) -> np (fun d => if c d then (d, f d) else (d, g d)).
Proof. intros H1 H2 d. cbv beta. destruct (c d); [apply H1|apply H2]. Qed.
Lemma np_str s : np (fun d => (set_str3 (d_str3 d ++ [s]) d, Ok s)). Proof. apply np_same. discriminate. Qed.
Lemma np_alloc : np alloc. Proof. apply np_same. discriminate. Qed.
Lemma np_obj_set l k v : np (obj_set l k v). Proof. apply np_same. discriminate. Qed.
Lemma np_push v : np (obj3_push v). Proof. apply np_same. discriminate. Qed.
Lemma np_ref v : np (obj3_ref v). Proof. unfold obj3_ref. apply np_if; discriminate. Qed.
Lemma np_wrap (m : Dm Z) : np m -> np (fun d => match m d with (d', Err _) => (d', Err EOther) | x => x end).
Proof. intros H d. specialize (H d). cbv beta. destruct (m d) as [d1 [a|x| |]]; first [exact H|discriminate]. Qed.
Lemma np_trait (t : trait) : np (fun d => (set_trait3 (d_trait3 d ++ [t]) d, Ok t)). Proof. apply np_same. discriminate. Qed.
Ltac np := repeat first
  [ apply np_ret | apply np_fail | apply np_fuel | apply np_read_bytes | apply np_read_into | apply np_read_be; lia | apply np_str | apply np_alloc
  | apply np_obj_set | apply np_push | apply np_ref | apply np_wrap | apply np_trait | assumption | apply np_if; discriminate
  | match goal with |- np (dbind _ _) => apply np_bind; [|intros ?] end
  | match goal with
    | |- np (if ?c then _ else _) => destruct c
    | |- np (match ?x with _ => _ end) => destruct x
    end
  | progress cbv zeta ].
Lemma np_byte : np read_byte. Proof. unfold read_byte. np. Qed.
Lemma np_u29 : np read_u29. Proof. unfold read_u29, read_byte. np. Qed.
Lemma np_du29 : np decode_u29. Proof. unfold decode_u29. apply np_bind; [apply np_u29|intros; np]. Qed.
Lemma np_string : np decode_string3. Proof. unfold decode_string3. apply np_bind; [apply np_du29|intros [r v]; np]. Qed.
Lemma np_date : np decode_date3. Proof. unfold decode_date3. apply np_bind; [apply np_du29|intros [r v]; np]. Qed.
Lemma np_xml : np decode_xmldoc3. Proof. unfold decode_xmldoc3. apply np_bind; [apply np_du29|intros [r v]; np]. Qed.
Lemma np_ba : np decode_bytearray3. Proof. unfold decode_bytearray3. apply np_bind; [apply np_du29|intros [r v]; np]. Qed.
Lemma np_loop {A} (m : Dm A) : np m -> forall fuel n, np (loop_n m fuel n).
Proof. intros H. induction fuel as [|f IH]; intros n; cbn [loop_n]; destruct (n <=? 0); np. apply IH. Qed.
Lemma np_flags : forall fuel, np (read_flags fuel).
Proof. induction fuel as [|f IH]; cbn [read_flags]; np. apply np_byte. Qed.
Section KC.
  Variable dec : Dm value.
  Hypothesis HD : np dec.
  Lemma np_named loc flags : forall names p, np (ext_named dec loc flags p names).
  Proof. induction names as [|n l IH]; intros p; cbn [ext_named]; np. apply IH. Qed.
  Lemma np_extra loc i flags : forall js, np (ext_extra dec loc i flags js).
  Proof. induction js as [|j l IH]; cbn [ext_extra]; np. Qed.
  Lemma np_ext_flags loc : forall fs i fields, np (ext_flags dec loc i fields fs).
  Proof. induction fs as [|x l IH]; intros i fields; cbn [ext_flags]; np; try apply np_named; try apply np_extra; try apply IH. Qed.
  Lemma np_external fuel loc fields : np (decode_external dec fuel loc fields).
  Proof. unfold decode_external. apply np_bind; [apply np_flags|intros; apply np_ext_flags]. Qed.
  Lemma np_abstract fuel : np (decode_abstract dec fuel). Proof. unfold decode_abstract. np. apply np_external. Qed.
  Lemma np_async fuel : np (decode_async dec fuel). Proof. unfold decode_async. np; [apply np_abstract|apply np_external]. Qed.
  Lemma np_ack fuel : np (decode_ack dec fuel). Proof. unfold decode_ack. np; [apply np_async|apply np_external]. Qed.
  Lemma np_assoc : forall fuel loc key, np (assoc_loop dec fuel loc key).
  Proof. induction fuel as [|f IH]; intros loc [|c key]; cbn [assoc_loop]; np; [apply np_string|apply IH]. Qed.
  Lemma np_array fuel : np (decode_array3 dec fuel).
  Proof. unfold decode_array3. apply np_bind; [apply np_du29|]. intros [r v]. np; [apply np_string|apply np_assoc|apply np_loop, HD]. Qed.
  Lemma np_props loc : forall ks, np (props_loop dec loc ks).
  Proof. induction ks as [|k ks IH]; cbn [props_loop]; np. Qed.
  Lemma np_dyn loc : forall fuel, np (dyn_loop dec fuel loc).
  Proof. induction fuel as [|f IH]; cbn [dyn_loop]; np. apply np_string. Qed.
  Lemma np_dtrait fuel v : np (decode_trait fuel v).
  Proof. unfold decode_trait. destruct (Z.land v 1 =? 0); [cbv zeta; apply np_if; discriminate|]. cbv zeta. apply np_bind; [apply np_string|intros]. apply np_bind; [apply np_loop, np_string|intros]. apply np_trait. Qed.
  Lemma np_object fuel : np (decode_object3 dec fuel).
  Proof.
    unfold decode_object3. apply np_bind; [apply np_du29|]. intros [r v]. destruct r; [apply np_ref|]. apply np_bind; [apply np_dtrait|]. intros t. apply np_bind; [apply np_push|]. intros u.
    destruct (t_ext t); [unfold decode_externalizable; np; [apply np_async|apply np_ack]|]. np; [apply np_props|apply np_dyn].
  Qed.
End KC.
Lemma np_dec3 : forall fuel, np (dec3 fuel).
Proof.
  induction fuel as [|f IH]; cbn [dec3]; [apply np_fuel|]. apply np_bind; [apply np_byte|]. intros m.
  repeat match goal with |- np (if ?c then _ else _) => destruct c end; np; first [apply np_u29|apply np_string|apply np_xml|apply np_date|apply np_array, IH|apply np_object, IH|apply np_ba].
Qed.

Lemma np_string0 : np decode_string0. Proof. apply np_bind; [apply np_read_be; lia|intros; apply np_read_bytes]. Qed.
Lemma np_longstring0 : np decode_longstring0. Proof. apply np_bind; [apply np_read_be; lia|intros; apply np_read_bytes]. Qed.
Lemma np_must b : np (next_byte_must_be b). Proof. apply np_bind; [apply np_byte|]. intros m. destruct (m =? b); [apply np_ret|apply np_fail]. Qed.
