From Verif Require Import Base.Go Base.GoFacts Base.IO Base.Float64 Proofs.IOFacts Model.AmfTypes Model.Amf3 Model.Amf3Ext Proofs.AmfTame.

(** No trait the decoder has seen counts as externalizable. *)
Definition noext (d : dstate) : Prop := Forall (fun t => t_ext t = false) (d_trait3 d).
(** Two decoding steps that do the same, and keep that so. *)
Definition eqn {A} (m m' : Dm A) : Prop := forall d, noext d -> m d = m' d /\ noext (fst (m' d)).
Definition kn {A} (m : Dm A) : Prop := forall d, d_trait3 (fst (m d)) = d_trait3 d.
Lemma eqn_kn {A} (m : Dm A) : kn m -> eqn m m.
Proof. intros H d HD. split; [reflexivity|]. unfold noext. rewrite H. exact HD. Qed.
Lemma eqn_bind {A B} (m m' : Dm A) (k k' : A -> Dm B) : eqn m m' -> (forall a, eqn (k a) (k' a)) -> eqn (dbind m k) (dbind m' k').
Proof.
  intros Hm Hk d HD. unfold dbind. destruct (Hm d HD) as [E H]. rewrite E. destruct (m' d) as [d1 [a|e| |]]; cbn [fst] in *; [apply Hk, H|split; [reflexivity|exact H]..].
Qed.
Lemma eqn_bind_post {A B} (P : A -> Prop) (m : Dm A) (k k' : A -> Dm B) :
  (forall d, noext d -> match m d with (d', Ok a) => noext d' /\ P a | (d', _) => noext d' end) -> (forall a, P a -> eqn (k a) (k' a)) -> eqn (dbind m k) (dbind m k').
Proof.
  intros Hm Hk d HD. unfold dbind. specialize (Hm d HD). destruct (m d) as [d1 [a|e| |]]; cbn [fst] in *; [apply Hk; apply Hm|split; [reflexivity|exact Hm]..].
Qed.
Lemma kn_bind {A B} (m : Dm A) (k : A -> Dm B) : kn m -> (forall a, kn (k a)) -> kn (dbind m k).
Proof. intros Hm Hk d. unfold dbind. specialize (Hm d). destruct (m d) as [d1 [a|e| |]]; cbn [fst] in *; [rewrite Hk; exact Hm|exact Hm..]. Qed.
Lemma kn_read_bytes n : kn (read_bytes n).
Proof. intros d. unfold read_bytes. destruct (read _ _) as [r [s|e| |]]; reflexivity. Qed.
Lemma kn_read_into n : kn (read_into n).
Proof. intros d. unfold read_into. destruct (read _ _) as [r [s|e| |]]; reflexivity. Qed.
Lemma kn_read_be n : kn (read_be n).
Proof. intros d. unfold read_be. destruct (read_full _ _) as [r [s|e| |]]; reflexivity. Qed.
Lemma kn_ret {A} (a : A) : kn (dret a). Proof. intros d. reflexivity. Qed.
Lemma kn_fail {A} e : kn (@dfail A e). Proof. intros d. reflexivity. Qed.
Lemma kn_fuel {A} : kn (fun d => (d, @OutOfFuel A)). Proof. intros d. reflexivity. Qed.
Lemma kn_if {A} (c : dstate -> bool) (f g : dstate -> res A) : kn (fun d => if c d then (d, f d) else (d, g d)).
Proof. intros d. cbv beta. destruct (c d); reflexivity. Qed.
Lemma kn_str s : kn (fun d => (set_str3 (d_str3 d ++ [s]) d, Ok s)). Proof. intros d. reflexivity. Qed.
Lemma kn_alloc : kn alloc. Proof. intros d. reflexivity. Qed.
Lemma kn_obj_set l k v : kn (obj_set l k v). Proof. intros d. reflexivity. Qed.
Lemma kn_push v : kn (obj3_push v). Proof. intros d. reflexivity. Qed.
Lemma kn_ref v : kn (obj3_ref v). Proof. unfold obj3_ref. apply kn_if. Qed.
Lemma kn_wrap (m : Dm Z) : kn m -> kn (fun d => match m d with (d', Err _) => (d', Err EOther) | x => x end).
Proof. intros H d. specialize (H d). cbv beta. destruct (m d) as [d1 [a|e| |]]; exact H. Qed.
Ltac kn := repeat first
  [ apply kn_ret | apply kn_fail | apply kn_fuel | apply kn_read_bytes | apply kn_read_into | apply kn_read_be | apply kn_str | apply kn_alloc
  | apply kn_obj_set | apply kn_push | apply kn_ref | apply kn_wrap | assumption | apply kn_if
  | apply kn_bind; [|intros ?]
  | match goal with
    | |- kn (if ?c then _ else _) => destruct c
    | |- kn (match ?x with _ => _ end) => destruct x
    end
  | progress cbv zeta ].
Lemma kn_u29 : kn read_u29. Proof. unfold read_u29, read_byte. kn. Qed.
Lemma kn_du29 : kn decode_u29. Proof. unfold decode_u29. apply kn_bind; [apply kn_u29|intros; kn]. Qed.
Lemma kn_string : kn decode_string3. Proof. unfold decode_string3. apply kn_bind; [apply kn_du29|intros [r v]; kn]. Qed.
Lemma kn_date : kn decode_date3. Proof. unfold decode_date3. apply kn_bind; [apply kn_du29|intros [r v]; kn]. Qed.
Lemma kn_xml : kn decode_xmldoc3. Proof. unfold decode_xmldoc3. apply kn_bind; [apply kn_du29|intros [r v]; kn]. Qed.
Lemma kn_ba : kn decode_bytearray3. Proof. unfold decode_bytearray3. apply kn_bind; [apply kn_du29|intros [r v]; kn]. Qed.
Lemma kn_loop {A} (m : Dm A) : kn m -> forall fuel n, kn (loop_n m fuel n).
Proof. intros H. induction fuel as [|f IH]; intros n; cbn [loop_n]; destruct (n <=? 0); kn. apply IH. Qed.
Lemma eqn_loop {A} (m m' : Dm A) : eqn m m' -> forall fuel n, eqn (loop_n m fuel n) (loop_n m' fuel n).
Proof.
  intros H. induction fuel as [|f IH]; intros n; cbn [loop_n]; destruct (n <=? 0); try (apply eqn_kn; kn).
  apply eqn_bind; [exact H|]. intros a. apply eqn_bind; [apply IH|]. intros l. apply eqn_kn. kn.
Qed.

Lemma ext_never v : (Z.land v 2 =? 1) = false.
Proof. apply Z.eqb_neq. intros E. apply (f_equal (fun z => Z.testbit z 0)) in E. rewrite Z.land_spec in E. cbn in E. rewrite andb_false_r in E. discriminate. Qed.
Lemma decode_trait_noext fuel v d : noext d -> match decode_trait fuel v d with (d', Ok t) => noext d' /\ t_ext t = false | (d', _) => noext d' end.
Proof.
  intros HD. unfold decode_trait. destruct (Z.land v 1 =? 0).
  - cbv zeta. destruct (Z.leb_spec (len (d_trait3 d)) (Z.shiftr v 1)); [exact HD|]. split; [exact HD|].
    destruct (nth_in_or_default (Z.to_nat (Z.shiftr v 1)) (d_trait3 d) (mkTrait [] false false [])) as [I| ->]; [|reflexivity]. unfold noext in HD. rewrite Forall_forall in HD. apply HD, I.
  - rewrite ext_never. cbv zeta. unfold dbind. pose proof (kn_string d) as K1. destruct (decode_string3 d) as [d1 [ty|e| |]]; cbn [fst] in *; try (unfold noext; rewrite K1; exact HD).
    pose proof (kn_loop decode_string3 kn_string fuel (Z.shiftr v 3) d1) as K2. destruct (loop_n decode_string3 fuel (Z.shiftr v 3) d1) as [d2 [ps|e| |]]; cbn [fst] in *; try (unfold noext; rewrite K2, K1; exact HD).
    split; [|reflexivity]. unfold noext. cbn [d_trait3 set_trait3]. rewrite K2, K1. apply Forall_app. split; [exact HD|]. repeat constructor.
Qed.

Section Same.
  Variable hs : handlers.
  Variables dec dec' : Dm value.
  Hypothesis HE : eqn dec dec'.
  Lemma eqn_assoc : forall fuel loc key, eqn (assoc_loop dec fuel loc key) (assoc_loop dec' fuel loc key).
  Proof.
    induction fuel as [|f IH]; intros loc [|c key]; cbn [assoc_loop]; try (apply eqn_kn; kn).
    apply eqn_bind; [exact HE|]. intros v. apply eqn_bind; [apply eqn_kn; kn|]. intros u. apply eqn_bind; [apply eqn_kn, kn_string|]. intros k'. apply IH.
  Qed.
  Lemma eqn_array fuel : eqn (decode_array3 dec fuel) (decode_array3 dec' fuel).
  Proof.
    unfold decode_array3. apply eqn_bind; [apply eqn_kn, kn_du29|]. intros [r v]. destruct r; [apply eqn_kn; kn|].
    apply eqn_bind; [apply eqn_kn, kn_string|]. intros key. apply eqn_bind; [apply eqn_kn; kn|]. intros u. apply eqn_bind; [apply eqn_kn; kn|]. intros loc.
    apply eqn_bind; [apply eqn_assoc|]. intros u2. apply eqn_bind; [apply eqn_loop, HE|]. intros l. apply eqn_kn. kn.
  Qed.
  Lemma eqn_props loc : forall ks, eqn (props_loop dec loc ks) (props_loop dec' loc ks).
  Proof. induction ks as [|k ks IH]; cbn [props_loop]; [apply eqn_kn; kn|]. apply eqn_bind; [exact HE|]. intros v. apply eqn_bind; [apply eqn_kn; kn|]. intros u. exact IH. Qed.
  Lemma eqn_dyn loc : forall fuel, eqn (dyn_loop dec fuel loc) (dyn_loop dec' fuel loc).
  Proof.
    induction fuel as [|f IH]; cbn [dyn_loop]; [apply eqn_kn; kn|]. apply eqn_bind; [apply eqn_kn, kn_string|]. intros [|c k]; [apply eqn_kn; kn|].
    apply eqn_bind; [exact HE|]. intros v. apply eqn_bind; [apply eqn_kn; kn|]. intros u. exact IH.
  Qed.
  Lemma eqn_object fuel : eqn (decode_object3_h hs dec fuel) (decode_object3 dec' fuel).
  Proof.
    unfold decode_object3_h, decode_object3. apply eqn_bind; [apply eqn_kn, kn_du29|]. intros [r v]. destruct r; [apply eqn_kn; kn|].
    apply (eqn_bind_post (fun t => t_ext t = false)); [intros d HD; apply decode_trait_noext, HD|]. intros t ET. rewrite ET.
    apply eqn_bind; [apply eqn_kn; kn|]. intros u. apply eqn_bind; [apply eqn_kn; kn|]. intros loc. apply eqn_bind; [apply eqn_props|]. intros u2.
    apply eqn_bind; [destruct (t_dyn t); [apply eqn_dyn|apply eqn_kn; kn]|]. intros u3. apply eqn_kn. kn.
  Qed.
End Same.
Lemma eqn_dec3 hs : forall fuel, eqn (dec3_h hs fuel) (dec3 fuel).
Proof.
  induction fuel as [|f IH]; cbn [dec3_h dec3]; [apply eqn_kn; kn|]. apply eqn_bind; [apply eqn_kn; unfold read_byte; kn|]. intros m.
  repeat match goal with |- eqn (if ?c then _ else _) (if ?c then _ else _) => destruct c end; try (apply eqn_kn; kn).
  - apply eqn_array, IH.
  - apply eqn_object, IH.
Qed.
Lemma eqn_decode3 hs : eqn (decode3_h hs) decode3.
Proof. intros d HD. apply eqn_dec3, HD. Qed.
Lemma eqn_batch3 hs : forall fuel d, noext d -> batch3_h hs fuel d = batch3 fuel d /\ noext (fst (batch3 fuel d)).
Proof.
  induction fuel as [|f IH]; intros d HD; cbn [batch3_h batch3]; [split; [reflexivity|exact HD]|].
  destruct (eqn_decode3 hs d HD) as [E H]. rewrite E. destruct (decode3 d) as [d1 [v|e| |]]; cbn [fst] in *; try (split; [reflexivity|exact H]).
  - destruct (IH d1 H) as [E2 H2]. rewrite E2. destruct (batch3 f d1) as [d2 [vs r]]. split; [reflexivity|exact H2].
  - destruct e; split; try reflexivity; exact H.
Qed.
