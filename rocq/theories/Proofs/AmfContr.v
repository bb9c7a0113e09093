(** Decoding from a reader that holds its bytes in one piece: what each step consumes. *)
From Verif Require Import Base.Go Base.GoFacts Base.IO Base.Float64 Proofs.IOFacts Model.AmfTypes Model.Amf3 Model.Amf0 Spec.Amf Proofs.AmfFacts.

Lemma take_drop (s : bytes) n : take s n ++ drop s n = s.
Proof. unfold take, drop. apply firstn_skipn. Qed.
Lemma contr_cons s e : s <> [] -> contr s e = mkR [s] e false.
Proof. destruct s; [congruence|reflexivity]. Qed.

Lemma read_split n s e : exists a rest, s = a ++ rest /\ fst (read n (contr s e)) = contr rest e /\
  (forall b, snd (read n (contr s e)) = Ok b -> b = a /\ (n = 0 -> s <> [] \/ e_zero e = false)).
Proof.
  unfold read. destruct s as [|x s].
  - exists [], []. split; [reflexivity|]. cbn [contr r_chunks r_end r_with]. destruct ((n =? 0) && negb (e_zero e)) eqn:E; (split; [reflexivity|]); intros b H; cbn [snd] in H; inversion H. split; [reflexivity|]. intros _. right. destruct (e_zero e); [rewrite andb_false_r in E; discriminate|reflexivity].
  - cbn [contr r_chunks r_end r_with]. destruct (n =? 0); [exists [], (x :: s); split; [reflexivity|]; split; [reflexivity|]; intros b H; inversion H; split; [reflexivity|left; discriminate]|].
    destruct (Z.leb_spec (len (x :: s)) n).
    + exists (x :: s), []. split; [rewrite app_nil_r; reflexivity|]. split; [reflexivity|]. intros b H0; inversion H0. split; [reflexivity|left; discriminate].
    + exists (take (x :: s) n), (drop (x :: s) n). split; [symmetry; apply take_drop|]. split; [|intros b H0; inversion H0; split; [reflexivity|left; discriminate]]. cbn [fst].
      rewrite contr_cons; [reflexivity|]. intros E. unfold drop in E. apply (f_equal (@length Z)) in E. rewrite skipn_length in E. unfold len in H. cbn [length] in *. lia.
Qed.
Lemma read_full_split n s e : 0 < n -> exists a rest, s = a ++ rest /\ fst (read_full n (contr s e)) = contr rest e /\
  (forall b, snd (read_full n (contr s e)) = Ok b -> b = a /\ len a = n).
Proof.
  intros Hn. unfold read_full. destruct s as [|x s].
  - exists [], []. cbn [contr r_chunks r_end r_with read_full_chunks fst snd]. repeat split; discriminate.
  - cbn [contr r_chunks r_end r_with read_full_chunks app]. destruct (Z.ltb_spec (len (x :: s)) n).
    + exists (x :: s), []. split; [rewrite app_nil_r; reflexivity|]. split; [reflexivity|]. cbn [snd]. discriminate.
    + destruct (Z.eqb_spec (len (x :: s)) n).
      * exists (x :: s), []. split; [rewrite app_nil_r; reflexivity|]. split; [reflexivity|]. cbn [snd]. intros b H1; inversion H1; subst. split; reflexivity.
      * exists (take (x :: s) n), (drop (x :: s) n). split; [symmetry; apply take_drop|]. cbn [fst snd]. split.
        -- rewrite contr_cons; [reflexivity|]. intros E. unfold drop in E. apply (f_equal (@length Z)) in E. rewrite skipn_length in E. unfold len in *. cbn [length] in *. lia.
        -- intros b H1; inversion H1; subst. split; [reflexivity|]. unfold take, len in *. rewrite firstn_length. lia.
Qed.

(** A step consumes a prefix. *)
Definition kc {A} (m : Dm A) : Prop := forall d s e, d_r d = contr s e -> exists p rest, s = p ++ rest /\ d_r (fst (m d)) = contr rest e.
Lemma kc_same {A} (m : Dm A) : (forall d, d_r (fst (m d)) = d_r d) -> kc m.
Proof. intros H d s e Hr. exists [], s. split; [reflexivity|]. rewrite H. exact Hr. Qed.
Lemma kc_bind {A B} (m : Dm A) (k : A -> Dm B) : kc m -> (forall a, kc (k a)) -> kc (dbind m k).
Proof.
  intros Hm Hk d s e Hr. destruct (Hm d s e Hr) as (p & rest & E & R). unfold dbind. destruct (m d) as [d1 [a|x| |]]; cbn [fst] in *; try (exists p, rest; split; assumption).
  destruct (Hk a d1 rest e R) as (p2 & rest2 & E2 & R2). exists (p ++ p2), rest2. split; [rewrite E, E2, app_assoc; reflexivity|exact R2].
Qed.
Lemma kc_read_bytes n : kc (read_bytes n).
Proof.
  intros d s e Hr. unfold read_bytes. rewrite Hr. destruct (read_split n s e) as (a & rest & E & R & _). exists a, rest. split; [exact E|].
  destruct (read n (contr s e)) as [r [b|x| |]]; exact R.
Qed.
Lemma kc_read_into n : kc (read_into n).
Proof.
  intros d s e Hr. unfold read_into. rewrite Hr. destruct (read_split n s e) as (a & rest & E & R & _). exists a, rest. split; [exact E|].
  destruct (read n (contr s e)) as [r [b|x| |]]; exact R.
Qed.
Lemma kc_read_be n : 0 < n -> kc (read_be n).
Proof.
  intros Hn d s e Hr. unfold read_be. rewrite Hr. destruct (read_full_split n s e Hn) as (a & rest & E & R & _). exists a, rest. split; [exact E|].
  destruct (read_full n (contr s e)) as [r [b|x| |]]; exact R.
Qed.
Lemma kc_ret {A} (a : A) : kc (dret a). Proof. apply kc_same. reflexivity. Qed.
Lemma kc_fail {A} e : kc (@dfail A e). Proof. apply kc_same. reflexivity. Qed.
Lemma kc_fuel {A} : kc (fun d => (d, @OutOfFuel A)). Proof. apply kc_same. reflexivity. Qed.
Lemma kc_if {A} (c : dstate -> bool) (f g : dstate -> res A) : kc (fun d => if c d then (d, f d) else (d, g d)).
Proof. apply kc_same. intros d. cbv beta. destruct (c d); reflexivity. Qed.
Lemma kc_str s : kc (fun d => (set_str3 (d_str3 d ++ [s]) d, Ok s)). Proof. apply kc_same. reflexivity. Qed.
Lemma kc_alloc : kc alloc. Proof. apply kc_same. reflexivity. Qed.
Lemma kc_obj_set l k v : kc (obj_set l k v). Proof. apply kc_same. reflexivity. Qed.
Lemma kc_push v : kc (obj3_push v). Proof. apply kc_same. reflexivity. Qed.
Lemma kc_ref v : kc (obj3_ref v). Proof. unfold obj3_ref. apply kc_if. Qed.
Lemma kc_wrap (m : Dm Z) : kc m -> kc (fun d => match m d with (d', Err _) => (d', Err EOther) | x => x end).
Proof. intros H d s e Hr. specialize (H d s e Hr). cbv beta. destruct (m d) as [d1 [a|x| |]]; exact H. Qed.
Lemma kc_trait (t : trait) : kc (fun d => (set_trait3 (d_trait3 d ++ [t]) d, Ok t)). Proof. apply kc_same. reflexivity. Qed.
Ltac kc := repeat first
  [ apply kc_ret | apply kc_fail | apply kc_fuel | apply kc_read_bytes | apply kc_read_into | apply kc_read_be; lia | apply kc_str | apply kc_alloc
  | apply kc_obj_set | apply kc_push | apply kc_ref | apply kc_wrap | apply kc_trait | assumption | apply kc_if
  | match goal with |- kc (dbind _ _) => apply kc_bind; [|intros ?] end
  | match goal with
    | |- kc (if ?c then _ else _) => destruct c
    | |- kc (match ?x with _ => _ end) => destruct x
    end
  | progress cbv zeta ].
Lemma kc_byte : kc read_byte. Proof. unfold read_byte. kc. Qed.
Lemma kc_u29 : kc read_u29. Proof. unfold read_u29, read_byte. kc. Qed.
Lemma kc_du29 : kc decode_u29. Proof. unfold decode_u29. apply kc_bind; [apply kc_u29|intros; kc]. Qed.
Lemma kc_string : kc decode_string3. Proof. unfold decode_string3. apply kc_bind; [apply kc_du29|intros [r v]; kc]. Qed.
Lemma kc_date : kc decode_date3. Proof. unfold decode_date3. apply kc_bind; [apply kc_du29|intros [r v]; kc]. Qed.
Lemma kc_xml : kc decode_xmldoc3. Proof. unfold decode_xmldoc3. apply kc_bind; [apply kc_du29|intros [r v]; kc]. Qed.
Lemma kc_ba : kc decode_bytearray3. Proof. unfold decode_bytearray3. apply kc_bind; [apply kc_du29|intros [r v]; kc]. Qed.
Lemma kc_loop {A} (m : Dm A) : kc m -> forall fuel n, kc (loop_n m fuel n).
Proof. intros H. induction fuel as [|f IH]; intros n; cbn [loop_n]; destruct (n <=? 0); kc. apply IH. Qed.
Lemma kc_flags : forall fuel, kc (read_flags fuel).
Proof. induction fuel as [|f IH]; cbn [read_flags]; kc. apply kc_byte. Qed.
Section KC.
  Variable dec : Dm value.
  Hypothesis HD : kc dec.
  Lemma kc_named loc flags : forall names p, kc (ext_named dec loc flags p names).
  Proof. induction names as [|n l IH]; intros p; cbn [ext_named]; kc. apply IH. Qed.
  Lemma kc_extra loc i flags : forall js, kc (ext_extra dec loc i flags js).
  Proof. induction js as [|j l IH]; cbn [ext_extra]; kc. Qed.
  Lemma kc_ext_flags loc : forall fs i fields, kc (ext_flags dec loc i fields fs).
  Proof. induction fs as [|x l IH]; intros i fields; cbn [ext_flags]; kc; try apply kc_named; try apply kc_extra; try apply IH. Qed.
  Lemma kc_external fuel loc fields : kc (decode_external dec fuel loc fields).
  Proof. unfold decode_external. apply kc_bind; [apply kc_flags|intros; apply kc_ext_flags]. Qed.
  Lemma kc_abstract fuel : kc (decode_abstract dec fuel). Proof. unfold decode_abstract. kc. apply kc_external. Qed.
  Lemma kc_async fuel : kc (decode_async dec fuel). Proof. unfold decode_async. kc; [apply kc_abstract|apply kc_external]. Qed.
  Lemma kc_ack fuel : kc (decode_ack dec fuel). Proof. unfold decode_ack. kc; [apply kc_async|apply kc_external]. Qed.
  Lemma kc_assoc : forall fuel loc key, kc (assoc_loop dec fuel loc key).
  Proof. induction fuel as [|f IH]; intros loc [|c key]; cbn [assoc_loop]; kc; [apply kc_string|apply IH]. Qed.
  Lemma kc_array fuel : kc (decode_array3 dec fuel).
  Proof. unfold decode_array3. apply kc_bind; [apply kc_du29|]. intros [r v]. kc; [apply kc_string|apply kc_assoc|apply kc_loop, HD]. Qed.
  Lemma kc_props loc : forall ks, kc (props_loop dec loc ks).
  Proof. induction ks as [|k ks IH]; cbn [props_loop]; kc. Qed.
  Lemma kc_dyn loc : forall fuel, kc (dyn_loop dec fuel loc).
  Proof. induction fuel as [|f IH]; cbn [dyn_loop]; kc. apply kc_string. Qed.
  Lemma kc_dtrait fuel v : kc (decode_trait fuel v).
  Proof. unfold decode_trait. destruct (Z.land v 1 =? 0); [cbv zeta; apply kc_if|]. cbv zeta. apply kc_bind; [apply kc_string|intros]. apply kc_bind; [apply kc_loop, kc_string|intros]. apply kc_trait. Qed.
  Lemma kc_object fuel : kc (decode_object3 dec fuel).
  Proof.
    unfold decode_object3. apply kc_bind; [apply kc_du29|]. intros [r v]. destruct r; [apply kc_ref|]. apply kc_bind; [apply kc_dtrait|]. intros t. apply kc_bind; [apply kc_push|]. intros u.
    destruct (t_ext t); [unfold decode_externalizable; kc; [apply kc_async|apply kc_ack]|]. kc; [apply kc_props|apply kc_dyn].
  Qed.
End KC.
Lemma kc_dec3 : forall fuel, kc (dec3 fuel).
Proof.
  induction fuel as [|f IH]; cbn [dec3]; [apply kc_fuel|]. apply kc_bind; [apply kc_byte|]. intros m.
  repeat match goal with |- kc (if ?c then _ else _) => destruct c end; kc; first [apply kc_u29|apply kc_string|apply kc_xml|apply kc_date|apply kc_array, IH|apply kc_object, IH|apply kc_ba].
Qed.
