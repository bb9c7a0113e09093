(** The decoders with their allocation logs: they are the decoders, and how large the logs are. *)
From Verif Require Import Base.Go Base.GoFacts Base.IO Base.Float64 Proofs.IOFacts Model.AmfTypes Model.Amf3 Model.Amf0 Model.AmfAlloc Spec.AmfAlloc
  Proofs.AmfFacts Proofs.AmfContr Proofs.AmfTame Proofs.AmfTerm.
Local Open Scope Z_scope.

(** * The same decoders *)
Definition er {A} (m : Am A) (n : Dm A) : Prop := forall d, snd (m d) = n d.
Lemma er_lift {A} (n : Dm A) : er (lift n) n. Proof. intros d. reflexivity. Qed.
Lemma er_bind {A B} (m : Am A) (n : Dm A) (k : A -> Am B) (h : A -> Dm B) : er m n -> (forall a, er (k a) (h a)) -> er (abind m k) (dbind n h).
Proof.
  intros Hm Hk d. unfold abind, dbind. rewrite <- (Hm d). destruct (m d) as [l [d' [a|e| |]]]; cbn [snd]; try reflexivity.
  rewrite <- (Hk a d'). destruct (k a d') as [l' x]. reflexivity.
Qed.
Lemma er_make {B} v (k : unit -> Am B) (n : Dm B) : er (k tt) n -> er (abind (make_ v) k) n.
Proof. intros H d. unfold abind, make_. rewrite <- (H d). destruct (k tt d) as [l' x]. reflexivity. Qed.
Ltac er := repeat first
  [ apply er_lift | assumption | apply er_make | apply er_bind; [|intros ?]
  | match goal with
    | |- er (if ?c then _ else _) _ => destruct c
    | |- er (match ?x with _ => _ end) _ => destruct x
    end
  | progress cbv zeta ].
Lemma er_read_bytes n : er (a_read_bytes n) (read_bytes n). Proof. unfold a_read_bytes. er. Qed.
Lemma er_read_byte : er a_read_byte read_byte. Proof. apply er_bind; [apply er_read_bytes|intros s; apply er_lift]. Qed.
Lemma er_next b : er (a_next_byte_must_be b) (next_byte_must_be b). Proof. apply er_bind; [apply er_read_byte|intros s; apply er_lift]. Qed.
Lemma er_read_be n : er (a_read_be n) (read_be n). Proof. unfold a_read_be. er. Qed.
Lemma er_read_into n : er (a_read_into n) (read_into n). Proof. unfold a_read_into. er. Qed.
Lemma er_loop {A} (m : Am A) n : er m n -> forall f k, er (a_loop_n m f k) (loop_n n f k).
Proof. intros H. induction f as [|f IH]; intros k; cbn [a_loop_n loop_n]; destruct (k <=? 0); try apply er_lift. apply er_bind; [exact H|]. intros x. apply er_bind; [apply IH|]. intros y. apply er_lift. Qed.
Lemma er_u29 : er a_read_u29 read_u29.
Proof. unfold a_read_u29, read_u29. repeat (first [apply er_bind; [apply er_read_byte|intros ?]|er]). Qed.
Lemma er_du29 : er a_decode_u29 decode_u29. Proof. apply er_bind; [apply er_u29|intros s; apply er_lift]. Qed.
Lemma er_string3 : er a_decode_string3 decode_string3.
Proof. apply er_bind; [apply er_du29|]. intros [[|] v]; [apply er_lift|]. destruct (v =? 0); [apply er_lift|]. apply er_bind; [apply er_read_bytes|intros ?; apply er_lift]. Qed.
Lemma er_date3 : er a_decode_date3 decode_date3.
Proof. apply er_bind; [apply er_du29|]. intros [[|] v]; er. Qed.
Lemma er_xml3 : er a_decode_xmldoc3 decode_xmldoc3.
Proof. apply er_bind; [apply er_du29|]. intros [[|] v]; [er|]. destruct (v =? 0); [apply er_lift|]. apply er_bind; [apply er_read_into|intros ?; apply er_lift]. Qed.
Lemma er_bytes3 : er a_decode_bytearray3 decode_bytearray3.
Proof. apply er_bind; [apply er_du29|]. intros [[|] v]; [er|]. destruct (v =? 0); [apply er_lift|]. apply er_bind; [apply er_read_into|intros ?; apply er_lift]. Qed.
Lemma er_assoc m n : er m n -> forall f loc k, er (a_assoc_loop m f loc k) (assoc_loop n f loc k).
Proof.
  intros H. induction f as [|f IH]; intros loc [|x k]; cbn [a_assoc_loop assoc_loop]; try apply er_lift.
  apply er_bind; [exact H|intros ?]. apply er_bind; [apply er_lift|intros ?]. apply er_bind; [apply er_string3|intros ?]. apply IH.
Qed.
Lemma er_array3 m n f : er m n -> er (a_decode_array3 m f) (decode_array3 n f).
Proof.
  intros H. apply er_bind; [apply er_du29|]. intros [[|] v]; [er|]. apply er_bind; [apply er_string3|intros ?]. apply er_bind; [apply er_lift|intros ?].
  apply er_bind; [apply er_lift|intros ?]. apply er_make. apply er_bind; [apply er_assoc, H|intros ?]. apply er_bind; [apply er_loop, H|intros ?]. apply er_lift.
Qed.
Lemma er_props m n : er m n -> forall ks loc, er (a_props_loop m loc ks) (props_loop n loc ks).
Proof. intros H. induction ks as [|k ks IH]; intros loc; cbn; [apply er_lift|]. apply er_bind; [exact H|intros ?]. apply er_bind; [apply er_lift|intros ?]. apply IH. Qed.
Lemma er_dyn m n : er m n -> forall f loc, er (a_dyn_loop m f loc) (dyn_loop n f loc).
Proof.
  intros H. induction f as [|f IH]; intros loc; cbn; [apply er_lift|]. apply er_bind; [apply er_string3|]. intros [|x k]; [apply er_lift|].
  apply er_bind; [exact H|intros ?]. apply er_bind; [apply er_lift|intros ?]. apply IH.
Qed.
Lemma er_trait f v : er (a_decode_trait f v) (decode_trait f v).
Proof.
  unfold a_decode_trait, decode_trait. destruct (Z.land v 1 =? 0); [apply er_lift|]. cbv zeta. apply er_bind; [apply er_string3|intros ?]. apply er_make.
  apply er_bind; [apply er_loop, er_string3|intros ?]. apply er_lift.
Qed.
Lemma er_object3 m n f : er m n -> er (a_decode_object3 m n f) (decode_object3 n f).
Proof.
  intros H. apply er_bind; [apply er_du29|]. intros [[|] v]; [apply er_lift|]. apply er_bind; [apply er_trait|intros t]. apply er_bind; [apply er_lift|intros ?].
  destruct (t_ext t); [apply er_lift|]. apply er_bind; [apply er_lift|intros ?]. apply er_bind; [apply er_props, H|intros ?].
  apply er_bind; [destruct (t_dyn t); [apply er_dyn, H|apply er_lift]|intros ?]. apply er_lift.
Qed.
Lemma er_dec3 f : er (a_dec3 f) (dec3 f).
Proof.
  induction f as [|f IH]; cbn [a_dec3 dec3]; [apply er_lift|]. apply er_bind; [apply er_read_byte|intros m].
  repeat (match goal with |- er (if ?c then _ else _) _ => destruct c end;
    [first [apply er_lift | apply er_xml3 | apply er_date3 | apply er_bytes3 | apply er_array3, IH | apply er_object3, IH
           | apply er_bind; [first [apply er_u29 | apply er_read_be | apply er_string3]|intros ?; apply er_lift]]|]). apply er_lift.
Qed.
Lemma er_string0 : er a_decode_string0 decode_string0. Proof. apply er_bind; [apply er_read_be|intros ?; apply er_read_bytes]. Qed.
Lemma er_longstring0 : er a_decode_longstring0 decode_longstring0. Proof. apply er_bind; [apply er_read_be|intros ?; apply er_read_bytes]. Qed.
Lemma er_ref0 : er a_decode_reference0 decode_reference0. Proof. apply er_bind; [apply er_read_be|intros ?; apply er_lift]. Qed.
Lemma er_date0 : er a_decode_date0 decode_date0. Proof. apply er_bind; [apply er_read_be|intros ?]. apply er_bind; [apply er_read_bytes|intros ?]. apply er_lift. Qed.
Lemma er_obj_loop m n : er m n -> forall f loc, er (a_obj_loop m f loc) (obj_loop n f loc).
Proof.
  intros H. induction f as [|f IH]; intros loc; cbn; [apply er_lift|]. apply er_bind; [apply er_string0|]. intros [|x k]; [apply er_next|].
  apply er_bind; [exact H|intros ?]. apply er_bind; [apply er_lift|intros ?]. apply IH.
Qed.
Lemma er_object0 m n f : er m n -> er (a_decode_object0 m f) (decode_object0 n f).
Proof. intros H. apply er_bind; [apply er_lift|intros ?]. apply er_bind; [apply er_lift|intros ?]. apply er_bind; [apply er_obj_loop, H|intros ?]. apply er_lift. Qed.
Lemma er_ecma0 m n f : er m n -> er (a_decode_ecma0 m f) (decode_ecma0 n f).
Proof. intros H. apply er_bind; [apply er_read_be|intros ?]. apply er_bind; [apply er_object0, H|intros ?]. apply er_lift. Qed.
Lemma er_strict0 m n f : er m n -> er (a_decode_strict0 m f) (decode_strict0 n f).
Proof. intros H. apply er_bind; [apply er_read_be|intros ?]. apply er_bind; [apply er_lift|intros ?]. apply er_bind; [apply er_loop, H|intros ?]. apply er_lift. Qed.
Lemma er_typed0 m n f : er m n -> er (a_decode_typed0 m f) (decode_typed0 n f).
Proof. intros H. apply er_bind; [apply er_lift|intros ?]. apply er_bind; [apply er_string0|intros ?]. apply er_bind; [apply er_object0, H|intros ?]. apply er_lift. Qed.
Lemma er_dec0 f : er (a_dec0 f) (dec0 f).
Proof.
  induction f as [|f IH]; cbn [a_dec0 dec0]; [apply er_lift|]. apply er_bind; [apply er_read_byte|intros m].
  repeat (match goal with |- er (if ?c then _ else _) _ => destruct c end;
    [first [apply er_lift | apply er_ref0 | apply er_date0 | apply er_ecma0, IH | apply er_strict0, IH | apply er_typed0, IH | apply er_dec3
           | apply er_bind; [first [apply er_read_be | apply er_read_byte | apply er_string0 | apply er_longstring0 | apply er_object0, IH]|intros ?; apply er_lift]]|]). apply er_lift.
Qed.

(** * Successful decoding from one piece *)
Lemma total_app a b : total (a ++ b) = total a + total b.
Proof. induction a; cbn [app total]; lia. Qed.
(** From [s] to [rest] unless the input is used up: 17 bytes per byte read, less [a]. *)
Definition sp {A} (a : Z) (m : Am A) : Prop := forall d s e, d_r d = contr s e ->
  let '(l, (d', r)) := m d in
  exists rest, d_r d' = contr rest e /\ len rest <= len s /\
    match r with Ok _ => rest <> [] -> total l + a <= 17 * (len s - len rest) | _ => True end.
Lemma sp_weak {A} a b (m : Am A) : sp a m -> b <= a -> sp b m.
Proof.
  intros H L d s e E. specialize (H d s e E). destruct (m d) as [l [d' r]]. destruct H as (rest & R & LE & H). exists rest. split; [exact R|]. split; [exact LE|].
  destruct r; auto. intros HN. specialize (H HN). lia.
Qed.
Lemma sp_bind {A B} a b (m : Am A) (k : A -> Am B) : sp a m -> (forall x, sp b (k x)) -> sp (a + b) (abind m k).
Proof.
  intros Hm Hk d s e E. specialize (Hm d s e E). unfold abind. destruct (m d) as [l [d1 [x|er| |]]]; destruct Hm as (r1 & R1 & L1 & H1);
    try (exists r1; split; [exact R1|]; split; [exact L1|exact I]).
  specialize (Hk x d1 r1 e R1). destruct (k x d1) as [l' [d2 r]]. destruct Hk as (r2 & R2 & L2 & H2). exists r2. split; [exact R2|]. split; [lia|].
  destruct r; auto. intros HN. assert (r1 <> []) by (intros ->; apply HN, len_zero; pose proof (len_nonneg r2); change (len []) with 0 in L2; lia).
  specialize (H1 H). specialize (H2 HN). rewrite total_app. lia.
Qed.
Lemma sp_lift {A} (m : Dm A) : kc m -> sp 0 (lift m).
Proof.
  intros H d s e E. destruct (H d s e E) as (p & rest & -> & R). unfold lift. destruct (m d) as [d' r]. cbn [fst] in R. exists rest. split; [exact R|].
  rewrite len_app. pose proof (len_nonneg p). split; [lia|]. destruct r; auto. intros _. cbn [total]. lia.
Qed.
Lemma sp_make {B} a v (k : unit -> Am B) : sp (v + a) (k tt) -> sp a (abind (make_ v) k).
Proof.
  intros H d s e E. specialize (H d s e E). unfold abind, make_. destruct (k tt d) as [l' [d' r]]. destruct H as (rest & R & L & H). exists rest. split; [exact R|].
  split; [exact L|]. destruct r; auto. intros HN. specialize (H HN). cbn [app total]. lia.
Qed.
Lemma sp_same {A} (m : Dm A) : (forall d, d_r (fst (m d)) = d_r d) -> sp 0 (lift m).
Proof. intros H. apply sp_lift, kc_same, H. Qed.
Lemma sp_ret {A} (x : A) : sp 0 (lift (dret x)). Proof. apply sp_same. reflexivity. Qed.
Lemma sp_fail {A} a e : sp a (lift (@dfail A e)).
Proof. intros d s x E. exists s. split; [exact E|]. split; [lia|exact I]. Qed.
Lemma sp_fuel {A} a : sp a (lift (fun d => (d, @OutOfFuel A))).
Proof. intros d s x E. exists s. split; [exact E|]. split; [lia|exact I]. Qed.

Lemma sp_read_bytes n : sp (16 * n) (a_read_bytes n).
Proof.
  apply sp_make. intros d s e E. unfold lift, read_bytes. rewrite E. destruct (read_split n s e) as (a & rest & -> & R & HB).
  destruct (read n (contr (a ++ rest) e)) as [r' [b|er| |]]; cbn [fst snd] in *; exists rest; (split; [exact R|]); rewrite len_app; pose proof (len_nonneg a); (split; [lia|]); auto.
  destruct (HB b eq_refl) as [-> _]. destruct (Z.eqb_spec (len a) n) as [<-|]; [|exact I]. intros _. cbn [total]. lia.
Qed.
Lemma sp_read_be n : 0 < n -> sp (16 * n) (a_read_be n).
Proof.
  intros Hn. apply sp_make. intros d s e E. unfold lift, read_be. rewrite E. destruct (read_full_split n s e Hn) as (a & rest & -> & R & HB).
  destruct (read_full n (contr (a ++ rest) e)) as [r' [b|er| |]]; cbn [fst snd] in *; exists rest; (split; [exact R|]); rewrite len_app; pose proof (len_nonneg a); (split; [lia|]); auto.
  destruct (HB b eq_refl) as [_ HL]. intros _. cbn [total]. lia.
Qed.
Lemma sp_read_into n : n <> 0 -> sp 0 (a_read_into n).
Proof.
  intros Hn. apply sp_make. intros d s e E. unfold lift, read_into. rewrite E. destruct s as [|x s].
  - unfold read. cbn [contr r_chunks r_end]. replace (n =? 0) with false by lia. cbn [andb]. exists []. split; [reflexivity|]. split; [lia|exact I].
  - unfold read. cbn [contr r_chunks r_end r_with]. replace (n =? 0) with false by lia. destruct (Z.leb_spec (len (x :: s)) n) as [L|L].
    + exists []. split; [reflexivity|]. split; [rewrite len_cons; change (len []) with 0; pose proof (len_nonneg s); lia|]. intros HN; elim HN; reflexivity.
    + exists (drop (x :: s) n). assert (ND : drop (x :: s) n <> []).
      { intros Q. unfold drop in Q. apply (f_equal (@length _)) in Q. rewrite skipn_length in Q. unfold len in L. cbn [length] in *. lia. }
      split; [rewrite contr_cons by exact ND; reflexivity|].
      assert (LD : len (drop (x :: s) n) = len (x :: s) - Z.max 0 n) by (unfold drop, len in *; rewrite skipn_length; cbn [length] in *; lia).
      rewrite LD. split; [lia|]. intros _. cbn [total]. lia.
Qed.
Lemma sp_read_byte : sp 16 a_read_byte.
Proof. apply (sp_bind 16 0); [apply (sp_read_bytes 1)|intros; apply sp_ret]. Qed.
Lemma sp_next b : sp 16 (a_next_byte_must_be b).
Proof. apply (sp_bind 16 0); [apply sp_read_byte|]. intros m. destruct (m =? b); [apply sp_ret|apply sp_fail]. Qed.
Lemma sp_loop {A} (m : Am A) : sp 16 m -> forall f n, sp (16 * n) (a_loop_n m f n).
Proof.
  intros H. induction f as [|f IH]; intros n; cbn [a_loop_n]; destruct (Z.leb_spec n 0).
  - apply (sp_weak 0); [apply sp_ret|lia].
  - apply sp_fuel.
  - apply (sp_weak 0); [apply sp_ret|lia].
  - apply (sp_weak (16 + (16 * (n - 1) + 0))); [|lia]. apply sp_bind; [exact H|]. intros x. apply sp_bind; [apply IH|]. intros xs. apply sp_ret.
Qed.
Lemma sp_u29 : sp 16 a_read_u29.
Proof.
  unfold a_read_u29. apply (sp_weak (16 + 0)); [|lia]. apply sp_bind; [apply sp_read_byte|]. intros b1. cbv zeta. destruct (_ =? 0); [apply sp_ret|].
  apply (sp_weak (16 + 0)); [|lia]. apply sp_bind; [apply sp_read_byte|]. intros b2. destruct (_ =? 0); [apply sp_ret|].
  apply (sp_weak (16 + 0)); [|lia]. apply sp_bind; [apply sp_read_byte|]. intros b3. destruct (_ =? 0); [apply sp_ret|].
  apply (sp_weak (16 + 0)); [|lia]. apply sp_bind; [apply sp_read_byte|]. intros b4. apply sp_ret.
Qed.
Lemma sp_du29 : sp 16 a_decode_u29.
Proof. apply (sp_bind 16 0); [apply sp_u29|intros; apply sp_ret]. Qed.
(** After a number below. *)
Lemma sp_bytes0 n : sp 0 (a_read_bytes n).
Proof.
  intros d s e E. pose proof (sp_read_bytes n d s e E) as H. unfold a_read_bytes, abind, make_, lift in *. unfold read_bytes in *. rewrite E in *.
  destruct (read_split n s e) as (a & rest & -> & R & HB). destruct (read n (contr (a ++ rest) e)) as [r' [b|er| |]]; cbn [fst snd] in *; auto.
  destruct (HB b eq_refl) as [-> _]. exists rest. split; [exact R|]. rewrite len_app. pose proof (len_nonneg a). split; [lia|].
  destruct (Z.eqb_spec (len a) n) as [<-|]; [|exact I]. intros _. cbn [app total]. lia.
Qed.
Lemma sp_string3 : sp 16 a_decode_string3.
Proof.
  apply (sp_bind 16 0); [apply sp_du29|]. intros [[|] v].
  - apply sp_same. intros d. destruct (_ <=? _); reflexivity.
  - destruct (v =? 0); [apply sp_ret|]. apply (sp_bind 0 0); [apply sp_bytes0|]. intros s. apply sp_same. reflexivity.
Qed.
Ltac same3 := apply sp_same; intros d; unfold dbind, obj3_ref, obj3_push, dret, dfail; cbn;
  repeat match goal with |- context [if ?c then _ else _] => destruct c; cbn | |- context [match ?x with _ => _ end] => destruct x; cbn end; reflexivity.
Lemma sp_date3 : sp 16 a_decode_date3.
Proof.
  apply (sp_bind 16 0); [apply sp_du29|]. intros [[|] v]; [same3|]. apply sp_make.
  intros d s e E. unfold lift, dbind, read_be. rewrite E. destruct (read_full_split 8 s e ltac:(lia)) as (a & rest & -> & R & HB).
  destruct (read_full 8 (contr (a ++ rest) e)) as [r' [b|er| |]]; cbn [fst snd] in *; exists rest; (split; [exact R|]); rewrite len_app; pose proof (len_nonneg a); (split; [lia|]); auto.
  destruct (HB b eq_refl) as [_ HL]. cbn. intros _. lia.
Qed.
Lemma sp_xml3 : sp 16 a_decode_xmldoc3.
Proof.
  apply (sp_bind 16 0); [apply sp_du29|]. intros [[|] v]; [same3|]. destruct (Z.eqb_spec v 0); [apply sp_ret|].
  apply (sp_bind 0 0); [apply sp_read_into; assumption|]. intros s. same3.
Qed.
Lemma sp_bytes3 : sp 16 a_decode_bytearray3.
Proof.
  apply (sp_bind 16 0); [apply sp_du29|]. intros [[|] v]; [same3|]. destruct (Z.eqb_spec v 0); [apply sp_ret|].
  apply (sp_bind 0 0); [apply sp_read_into; assumption|]. intros s. same3.
Qed.
Lemma sp_set loc k v : sp 0 (lift (obj_set loc k v)). Proof. apply sp_same. reflexivity. Qed.
Lemma sp_alloc : sp 0 (lift alloc). Proof. apply sp_same. reflexivity. Qed.
Lemma sp_push3 v : sp 0 (lift (obj3_push v)). Proof. apply sp_same. reflexivity. Qed.
Lemma sp_push0 v : sp 0 (lift (ref0_push v)). Proof. apply sp_same. reflexivity. Qed.
Lemma sp_assoc m : sp 16 m -> forall f loc k, sp 0 (a_assoc_loop m f loc k).
Proof.
  intros H. induction f as [|f IH]; intros loc [|x k]; cbn [a_assoc_loop]; try apply sp_ret; try apply sp_fuel.
  apply (sp_weak (16 + (0 + (16 + 0)))); [|lia]. apply sp_bind; [exact H|intros ?]. apply sp_bind; [apply sp_set|intros ?]. apply sp_bind; [apply sp_string3|intros ?]. apply IH.
Qed.
Lemma sp_array3 m f : sp 16 m -> sp 16 (a_decode_array3 m f).
Proof.
  intros H. apply (sp_bind 16 0); [apply sp_du29|]. intros [[|] v]; [same3|]. apply (sp_weak (16 + (0 + (0 + 0)))); [|lia].
  apply sp_bind; [apply sp_string3|intros ?]. apply sp_bind; [apply sp_push3|intros ?]. apply sp_bind; [apply sp_alloc|intros ?]. apply sp_make.
  apply (sp_weak (0 + (16 * v + 0))); [|lia]. apply sp_bind; [apply sp_assoc, H|intros ?]. apply sp_bind; [apply sp_loop, H|intros ?]. apply sp_ret.
Qed.
Lemma sp_props m : sp 16 m -> forall ks loc, sp 0 (a_props_loop m loc ks).
Proof.
  intros H. induction ks as [|k ks IH]; intros loc; cbn; [apply sp_ret|]. apply (sp_weak (16 + (0 + 0))); [|lia].
  apply sp_bind; [exact H|intros ?]. apply sp_bind; [apply sp_set|intros ?]. apply IH.
Qed.
Lemma sp_dyn m : sp 16 m -> forall f loc, sp 0 (a_dyn_loop m f loc).
Proof.
  intros H. induction f as [|f IH]; intros loc; cbn; [apply sp_fuel|]. apply (sp_weak (16 + 0)); [|lia]. apply sp_bind; [apply sp_string3|]. intros [|x k]; [apply sp_ret|].
  apply (sp_weak (16 + (0 + 0))); [|lia]. apply sp_bind; [exact H|intros ?]. apply sp_bind; [apply sp_set|intros ?]. apply IH.
Qed.
Lemma sp_trait f v : sp 0 (a_decode_trait f v).
Proof.
  unfold a_decode_trait. destruct (Z.land v 1 =? 0); [apply sp_same; intros d; cbv zeta; destruct (_ <=? _); reflexivity|]. cbv zeta.
  apply (sp_weak (16 + 0)); [|lia]. apply sp_bind; [apply sp_string3|intros ?]. apply sp_make.
  apply (sp_weak (16 * Z.shiftr v 3 + 0)); [|lia]. apply sp_bind; [apply sp_loop, sp_string3|intros ?]. apply sp_same. reflexivity.
Qed.
Lemma kc_externalizable n f t : kc n -> kc (decode_externalizable n f t).
Proof. intros H. unfold decode_externalizable. kc; [apply kc_async|apply kc_ack]; exact H. Qed.
Lemma sp_object3 m n f : sp 16 m -> kc n -> sp 16 (a_decode_object3 m n f).
Proof.
  intros H HN. apply (sp_bind 16 0); [apply sp_du29|]. intros [[|] v]; [same3|]. apply (sp_bind 0 0); [apply sp_trait|intros t]. apply (sp_bind 0 0); [apply sp_push3|intros ?].
  destruct (t_ext t); [apply sp_lift, kc_externalizable, HN|]. apply (sp_bind 0 0); [apply sp_alloc|intros ?]. apply (sp_bind 0 0); [apply sp_props, H|intros ?].
  apply (sp_bind 0 0); [destruct (t_dyn t); [apply sp_dyn, H|apply sp_ret]|intros ?]. apply sp_ret.
Qed.
Lemma sp_dec3 f : sp 16 (a_dec3 f).
Proof.
  induction f as [|f IH]; cbn [a_dec3]; [apply sp_fuel|]. apply (sp_bind 16 0); [apply sp_read_byte|intros m].
  assert (W : forall (x : Am value), sp 16 x -> sp 0 x) by (intros x Hx; apply (sp_weak 16); [exact Hx|lia]).
  assert (BN : forall A (x : Am A) (k : A -> value), sp 16 x -> sp 0 (abind x (fun y => lift (dret (k y))))).
  { intros A x k Hx. apply (sp_weak (16 + 0)); [|lia]. apply sp_bind; [exact Hx|intros; apply sp_ret]. }
  repeat (match goal with |- sp _ (if ?c then _ else _) => destruct c end;
    [first [apply sp_ret | apply W, sp_xml3 | apply W, sp_date3 | apply W, sp_bytes3 | apply W, sp_array3, IH | apply W, sp_object3; [exact IH|apply kc_dec3]
           | apply (BN Z), sp_u29 | apply (BN Z), (sp_weak (16 * 8)); [apply sp_read_be; lia|lia] | apply (BN bytes), sp_string3]|]). apply sp_fail.
Qed.
Lemma sp_string0 : sp 16 a_decode_string0.
Proof. apply (sp_weak (16 * 2 + 0)); [|lia]. apply sp_bind; [apply sp_read_be; lia|intros; apply sp_bytes0]. Qed.
Lemma sp_longstring0 : sp 16 a_decode_longstring0.
Proof. apply (sp_weak (16 * 4 + 0)); [|lia]. apply sp_bind; [apply sp_read_be; lia|intros; apply sp_bytes0]. Qed.
Lemma sp_obj_loop m : sp 16 m -> forall f loc, sp 0 (a_obj_loop m f loc).
Proof.
  intros H. induction f as [|f IH]; intros loc; cbn; [apply sp_fuel|]. apply (sp_weak (16 + 0)); [|lia]. apply sp_bind; [apply sp_string0|].
  intros [|x k]; [apply (sp_weak 16); [apply sp_next|lia]|].
  apply (sp_weak (16 + (0 + 0))); [|lia]. apply sp_bind; [exact H|intros ?]. apply sp_bind; [apply sp_set|intros ?]. apply IH.
Qed.
Lemma sp_object0 m f : sp 16 m -> sp 0 (a_decode_object0 m f).
Proof. intros H. apply (sp_bind 0 0); [apply sp_alloc|intros ?]. apply (sp_bind 0 0); [apply sp_push0|intros ?]. apply (sp_bind 0 0); [apply sp_obj_loop, H|intros ?]. apply sp_ret. Qed.
Lemma sp_dec0 f : sp 16 (a_dec0 f).
Proof.
  induction f as [|f IH]; cbn [a_dec0]; [apply sp_fuel|]. apply (sp_bind 16 0); [apply sp_read_byte|intros m].
  assert (BN : forall A (x : Am A) (k : A -> value), sp 16 x -> sp 0 (abind x (fun y => lift (dret (k y))))).
  { intros A x k Hx. apply (sp_weak (16 + 0)); [|lia]. apply sp_bind; [exact Hx|intros; apply sp_ret]. }
  destruct (m =? 0); [apply (BN Z), (sp_weak (16 * 8)); [apply sp_read_be; lia|lia]|].
  destruct (m =? 1); [apply (BN Z), sp_read_byte|].
  destruct (m =? 2); [apply (BN bytes), sp_string0|].
  destruct (m =? 3); [apply (sp_bind 0 0); [apply sp_object0, IH|intros; apply sp_ret]|].
  destruct (m =? 4); [apply sp_fail|].
  destruct ((m =? 5) || (m =? 6) || (m =? 13)); [apply sp_ret|].
  destruct (m =? 7). { apply (sp_weak (16 * 2 + 0)); [|lia]. apply sp_bind; [apply sp_read_be; lia|]. intros ref. apply sp_same. intros d. repeat match goal with |- context [if ?c then _ else _] => destruct c end; reflexivity. }
  destruct (m =? 8). { apply (sp_weak (16 * 4 + (0 + 0))); [|lia]. apply sp_bind; [apply sp_read_be; lia|intros ?]. apply sp_bind; [apply sp_object0, IH|intros ?]. apply sp_ret. }
  destruct (m =? 10). { apply (sp_weak (16 * 4 + 0)); [|lia]. apply sp_bind; [apply sp_read_be; lia|intros n]. apply (sp_bind 0 0); [apply sp_push0|intros ?].
    destruct (Z.leb_spec n 0) as [L|L].
    - apply (sp_bind 0 0); [destruct f; cbn [a_loop_n]; (replace (n <=? 0) with true by lia); apply sp_ret|intros ?]. apply sp_ret.
    - apply (sp_weak (16 * n + 0)); [|lia]. apply sp_bind; [apply sp_loop, IH|intros ?]. apply sp_ret. }
  destruct (m =? 11). { apply (sp_weak (16 * 8 + (16 * 2 + 0))); [|lia]. apply sp_bind; [apply sp_read_be; lia|intros ?]. apply sp_bind; [apply sp_read_bytes|intros ?]. apply sp_ret. }
  destruct (m =? 12); [apply (BN bytes), sp_longstring0|].
  destruct (m =? 14); [apply sp_fail|].
  destruct (m =? 15); [apply (BN bytes), sp_longstring0|].
  destruct (m =? 16). { apply (sp_bind 0 0); [apply sp_push0|intros ?]. apply (sp_weak (16 + (0 + 0))); [|lia]. apply sp_bind; [apply sp_string0|intros ?]. apply sp_bind; [apply sp_object0, IH|intros ?]. apply sp_ret. }
  destruct (m =? 17); [apply (sp_weak 16); [apply sp_dec3|lia]|]. apply sp_fail.
Qed.

(** * AMF0, any reader *)
Definition good (d : dstate) : Prop := is_bytes (r_rest (d_r d)) /\ ~ In 17 (r_rest (d_r d)).
Lemma good_suffix d d' p : good d -> r_rest (d_r d) = p ++ r_rest (d_r d') -> good d'.
Proof. intros [H1 H2] E. rewrite E in *. apply is_bytes_app in H1. split; [apply H1|]. intros H. apply H2, in_or_app. right. exact H. Qed.
Definition sq {A} (Q : A -> Prop) (m : Am A) : Prop := forall d, good d ->
  let '(l, (d', r)) := m d in
  exists p, r_rest (d_r d) = p ++ r_rest (d_r d') /\
    match r with Ok x => Q x /\ total l = len p | _ => total l <= len p + 4294967295 end.
Lemma sq_bind {A B} Q (R : B -> Prop) (m : Am A) (k : A -> Am B) : sq Q m -> (forall x, Q x -> sq R (k x)) -> sq R (abind m k).
Proof.
  intros Hm Hk d G. specialize (Hm d G). unfold abind. destruct (m d) as [l [d1 [x|er| |]]]; destruct Hm as (p & E & H); try (exists p; split; [exact E|exact H]).
  destruct H as [HQ H]. specialize (Hk x HQ d1 (good_suffix _ _ _ G E)). destruct (k x d1) as [l' [d2 r]]. destruct Hk as (p2 & E2 & H2).
  exists (p ++ p2). rewrite E, E2, app_assoc. split; [reflexivity|]. rewrite total_app, len_app. destruct r; [split; [apply H2|]; destruct H2|..]; lia.
Qed.
Definition any {A} (x : A) : Prop := True.
Lemma sq_same {A} (m : Dm A) : (forall d, d_r (fst (m d)) = d_r d) -> sq any (lift m).
Proof.
  intros H d _. specialize (H d). unfold lift. destruct (m d) as [d' r]. cbn [fst] in H. exists []. rewrite H. split; [reflexivity|].
  cbn [total]. change (len []) with 0. destruct r; [split; [exact I|]|..]; lia.
Qed.
Lemma sq_ret {A} (x : A) : sq any (lift (dret x)). Proof. apply sq_same. reflexivity. Qed.
Lemma sq_fail {A} e : sq any (lift (@dfail A e)). Proof. apply sq_same. reflexivity. Qed.
Lemma sq_fuel {A} : sq any (lift (fun d => (d, @OutOfFuel A))). Proof. apply sq_same. reflexivity. Qed.
Lemma sq_read_bytes n : n < 4294967296 -> sq any (a_read_bytes n).
Proof.
  intros Hn d _. unfold a_read_bytes, abind, make_, lift, read_bytes. destruct (read_rest n (d_r d)) as (p & Hp & Hs & _ & _).
  destruct (read n (d_r d)) as [r' [s|e| |]]; cbn [fst snd] in *; exists p; cbn [set_r d_r app total]; (split; [exact Hp|]); pose proof (len_nonneg p); try lia.
  rewrite (Hs s eq_refl). destruct (Z.eqb_spec (len s) n); [split; [exact I|]|pose proof (len_nonneg s)]; lia.
Qed.
Lemma sq_read_byte : sq any a_read_byte.
Proof. apply (sq_bind any); [apply sq_read_bytes; lia|intros; apply sq_ret]. Qed.
Lemma sq_read_be n : 0 < n <= 8 -> sq (fun v => 0 <= v < 256 ^ n) (a_read_be n).
Proof.
  intros Hn d [G _]. unfold a_read_be, abind, make_, lift, read_be, read_full.
  destruct (read_full_chunks_rest (r_chunks (d_r d)) (e_err (r_end (d_r d))) n []) as ((p & Hp & Hs) & _ & _).
  destruct (read_full_chunks (e_err (r_end (d_r d))) n [] (r_chunks (d_r d))) as [cs' [s|e| |]] eqn:E; cbn [fst snd] in *; exists p; cbn [set_r d_r app total r_rest r_chunks];
    (split; [exact Hp|]); pose proof (len_nonneg p); try lia.
  destruct (Hs s eq_refl) as [H1 Hl]. cbn [app] in H1. subst p. assert (L : len s = n) by (apply Hl; [|lia]; intros Hc; rewrite Hc in E; discriminate).
  split; [|lia]. unfold r_rest in G. rewrite Hp in G. apply is_bytes_app in G. rewrite <- L. apply be_val_bound, G.
Qed.
Lemma sq_next b : sq any (a_next_byte_must_be b).
Proof. apply (sq_bind any); [apply sq_read_byte|]. intros m _. destruct (m =? b); [apply sq_ret|apply sq_fail]. Qed.
Lemma sq_string0 : sq any a_decode_string0.
Proof. eapply sq_bind; [apply sq_read_be; lia|]. intros n H. apply sq_read_bytes. cbn beta in H. change (256 ^ 2) with 65536 in H. lia. Qed.
Lemma sq_longstring0 : sq any a_decode_longstring0.
Proof. eapply sq_bind; [apply sq_read_be; lia|]. intros n H. apply sq_read_bytes. cbn beta in H. change (256 ^ 4) with 4294967296 in H. lia. Qed.
Lemma sq_loop {A} (m : Am A) : sq any m -> forall f n, sq any (a_loop_n m f n).
Proof.
  intros H. induction f as [|f IH]; intros n; cbn [a_loop_n]; destruct (n <=? 0); try apply sq_ret; [apply sq_fuel|].
  eapply sq_bind; [exact H|]. intros x _. eapply sq_bind; [apply IH|]. intros xs _. apply sq_ret.
Qed.
Lemma sq_obj_loop m : sq any m -> forall f loc, sq any (a_obj_loop m f loc).
Proof.
  intros H. induction f as [|f IH]; intros loc; cbn [a_obj_loop]; [apply sq_fuel|]. eapply sq_bind; [apply sq_string0|]. intros [|x k] _; [apply sq_next|].
  eapply sq_bind; [exact H|intros ? _]. eapply sq_bind; [apply sq_same; reflexivity|intros ? _]. apply IH.
Qed.
Lemma sq_object0 m f : sq any m -> sq any (a_decode_object0 m f).
Proof.
  intros H. eapply sq_bind; [apply sq_same; reflexivity|intros ? _]. eapply sq_bind; [apply sq_same; reflexivity|intros ? _].
  eapply sq_bind; [apply sq_obj_loop, H|intros ? _]. apply sq_ret.
Qed.
Lemma a_read_byte_in d l d' m : a_read_byte d = (l, (d', Ok m)) -> In m (r_rest (d_r d)).
Proof.
  intros E. pose proof (er_read_byte d) as H. rewrite E in H. cbn [snd] in H. symmetry in H.
  unfold read_byte, dbind, read_bytes in H. destruct (read_rest 1 (d_r d)) as (p & Hp & Hs & _ & _).
  destruct (read 1 (d_r d)) as [r' [s|e| |]]; cbn [fst snd] in *; try discriminate.
  destruct (len s =? 1) eqn:E1; [|discriminate]. inversion H; subst. specialize (Hs s eq_refl). subst p. rewrite Hp. destruct s as [|x s]; [discriminate|]. left. reflexivity.
Qed.
Lemma sq_dec0 f : sq any (a_dec0 f).
Proof.
  induction f as [|f IH]; cbn [a_dec0]; [apply sq_fuel|].
  apply (sq_bind (fun m => m <> 17)).
  { intros d G. pose proof (sq_read_byte d G) as H. destruct (a_read_byte d) as [l [d' r]] eqn:E. destruct H as (p & Hp & H). exists p. split; [exact Hp|].
    destruct r; auto. destruct H as [_ H]. split; [|exact H]. intros ->. apply (proj2 G), (a_read_byte_in _ _ _ _ E). }
  intros m Hm. replace (m =? 17) with false by lia.
  repeat (match goal with |- sq _ (if ?c then _ else _) => destruct c end;
    [first [apply sq_ret | apply sq_fail
           | eapply sq_bind; [first [apply sq_read_be; lia | apply sq_read_byte | apply sq_string0 | apply sq_longstring0 | apply sq_object0, IH]|intros ? _; apply sq_ret]
           | idtac]|]); try apply sq_fail.
  - eapply sq_bind; [apply sq_read_be; lia|intros ref _]. apply sq_same. intros d. repeat match goal with |- context [if ?c then _ else _] => destruct c end; reflexivity.
  - eapply sq_bind; [apply sq_read_be; lia|intros ? _]. eapply sq_bind; [apply sq_object0, IH|intros ? _]. apply sq_ret.
  - eapply sq_bind; [apply sq_read_be; lia|intros ? _]. eapply sq_bind; [apply sq_same; reflexivity|intros ? _]. eapply sq_bind; [apply sq_loop, IH|intros ? _]. apply sq_ret.
  - eapply sq_bind; [apply sq_read_be; lia|intros ? _]. eapply sq_bind; [apply sq_read_bytes; lia|intros ? _]. apply sq_ret.
  - eapply sq_bind; [apply sq_same; reflexivity|intros ? _]. eapply sq_bind; [apply sq_string0|intros ? _]. eapply sq_bind; [apply sq_object0, IH|intros ? _]. apply sq_ret.
Qed.

(** * Logs of single steps *)
Definition nn {A} (m : Am A) : Prop := forall d, 0 <= total (fst (m d)).
Lemma nn_bind {A B} (m : Am A) (k : A -> Am B) : nn m -> (forall x, nn (k x)) -> nn (abind m k).
Proof.
  intros Hm Hk d. unfold abind. specialize (Hm d). destruct (m d) as [l [d' [x|e| |]]]; cbn [fst] in *; try exact Hm.
  specialize (Hk x d'). destruct (k x d') as [l' y]. cbn [fst] in *. rewrite total_app. lia.
Qed.
Lemma nn_lift {A} (m : Dm A) : nn (lift m). Proof. intros d. cbn. lia. Qed.
Lemma nn_make n : 0 <= n -> nn (make_ n). Proof. intros H d. cbn. lia. Qed.
Lemma nn_read_byte : nn a_read_byte.
Proof. apply nn_bind; [apply nn_bind; [apply nn_make; lia|intros; apply nn_lift]|intros; apply nn_lift]. Qed.
Lemma nn_du29 : nn a_decode_u29.
Proof.
  apply nn_bind; [|intros; apply nn_lift]. unfold a_read_u29.
  repeat first [apply nn_lift | apply nn_bind; [apply nn_read_byte|intros ?] | progress cbv zeta | match goal with |- nn (if ?c then _ else _) => destruct c end].
Qed.
Lemma abind_ok {A B} (m : Am A) (k : A -> Am B) d l d' a : m d = (l, (d', Ok a)) -> abind m k d = (l ++ fst (k a d'), snd (k a d')).
Proof. intros E. unfold abind. rewrite E. destruct (k a d'). reflexivity. Qed.
(** * Leaves from one piece: no more than what is read *)
Definition sx {A} (m : Am A) : Prop := forall d s e, d_r d = contr s e ->
  let '(l, (d', r)) := m d in
  exists rest, d_r d' = contr rest e /\ len rest <= len s /\
    match r with Ok _ => rest <> [] -> total l <= len s - len rest | _ => True end.
Lemma sx_bind {A B} (m : Am A) (k : A -> Am B) : sx m -> (forall x, sx (k x)) -> sx (abind m k).
Proof.
  intros Hm Hk d s e E. specialize (Hm d s e E). unfold abind. destruct (m d) as [l [d1 [x|er| |]]]; destruct Hm as (r1 & R1 & L1 & H1);
    try (exists r1; split; [exact R1|]; split; [exact L1|exact I]).
  specialize (Hk x d1 r1 e R1). destruct (k x d1) as [l' [d2 r]]. destruct Hk as (r2 & R2 & L2 & H2). exists r2. split; [exact R2|]. split; [lia|].
  destruct r; auto. intros HN. assert (r1 <> []) by (intros ->; apply HN, len_zero; pose proof (len_nonneg r2); change (len []) with 0 in L2; lia).
  specialize (H1 H). specialize (H2 HN). rewrite total_app. lia.
Qed.
Lemma sx_same {A} (m : Dm A) : (forall d, d_r (fst (m d)) = d_r d) -> sx (lift m).
Proof. intros H d s e E. unfold lift. specialize (H d). destruct (m d) as [d' r]. cbn [fst] in H. exists s. rewrite H. split; [exact E|]. split; [lia|]. destruct r; auto. intros _. cbn [total]. lia. Qed.
Lemma sx_ret {A} (x : A) : sx (lift (dret x)). Proof. apply sx_same. reflexivity. Qed.
Lemma sx_fail {A} e : sx (lift (@dfail A e)). Proof. apply sx_same. reflexivity. Qed.
Lemma sx_read_bytes n : sx (a_read_bytes n).
Proof.
  intros d s e E. unfold a_read_bytes, abind, make_, lift, read_bytes. rewrite E. destruct (read_split n s e) as (a & rest & -> & R & HB).
  destruct (read n (contr (a ++ rest) e)) as [r' [b|er| |]]; cbn [fst snd] in *; exists rest; (split; [exact R|]); rewrite len_app; pose proof (len_nonneg a); (split; [lia|]); auto.
  destruct (HB b eq_refl) as [-> _]. destruct (Z.eqb_spec (len a) n) as [<-|]; [|exact I]. intros _. cbn [app total]. lia.
Qed.
Lemma sx_read_be n : 0 < n -> sx (a_read_be n).
Proof.
  intros Hn d s e E. unfold a_read_be, abind, make_, lift, read_be. rewrite E. destruct (read_full_split n s e Hn) as (a & rest & -> & R & HB).
  destruct (read_full n (contr (a ++ rest) e)) as [r' [b|er| |]]; cbn [fst snd] in *; exists rest; (split; [exact R|]); rewrite len_app; pose proof (len_nonneg a); (split; [lia|]); auto.
  destruct (HB b eq_refl) as [_ HL]. intros _. cbn [app total]. lia.
Qed.
Lemma sx_read_into n : n <> 0 -> sx (a_read_into n).
Proof.
  intros Hn d s e E. pose proof (sp_read_into n Hn d s e E) as H. unfold a_read_into, abind, make_, lift, read_into in *. rewrite E in *. destruct s as [|x s].
  - unfold read. cbn [contr r_chunks r_end]. replace (n =? 0) with false by lia. cbn [andb]. exists []. split; [reflexivity|]. split; [lia|exact I].
  - unfold read in *. cbn [contr r_chunks r_end r_with] in *. replace (n =? 0) with false in * by lia. destruct (Z.leb_spec (len (x :: s)) n) as [L|L].
    + destruct H as (rest & R & LE & _). exists rest. split; [exact R|]. split; [exact LE|]. intros HN. elim HN.
      apply (f_equal (fun r => r_rest r)) in R. rewrite contr_rest in R. symmetry. exact R.
    + exists (drop (x :: s) n). assert (ND : drop (x :: s) n <> []).
      { intros Q. unfold drop in Q. apply (f_equal (@length _)) in Q. rewrite skipn_length in Q. unfold len in L. cbn [length] in *. lia. }
      split; [rewrite contr_cons by exact ND; reflexivity|].
      assert (LD : len (drop (x :: s) n) = len (x :: s) - Z.max 0 n) by (unfold drop, len in *; rewrite skipn_length; cbn [length] in *; lia).
      rewrite LD. split; [lia|]. intros _. cbn [app total]. lia.
Qed.
Lemma sx_read_byte : sx a_read_byte.
Proof. apply sx_bind; [apply (sx_read_bytes 1)|intros; apply sx_ret]. Qed.
Lemma sx_u29 : sx a_read_u29.
Proof.
  unfold a_read_u29. apply sx_bind; [apply sx_read_byte|]. intros b1. cbv zeta. destruct (_ =? 0); [apply sx_ret|].
  apply sx_bind; [apply sx_read_byte|]. intros b2. destruct (_ =? 0); [apply sx_ret|].
  apply sx_bind; [apply sx_read_byte|]. intros b3. destruct (_ =? 0); [apply sx_ret|].
  apply sx_bind; [apply sx_read_byte|]. intros b4. apply sx_ret.
Qed.
Lemma sx_du29 : sx a_decode_u29.
Proof. apply sx_bind; [apply sx_u29|intros; apply sx_ret]. Qed.
Lemma sx_string3 : sx a_decode_string3.
Proof.
  apply sx_bind; [apply sx_du29|]. intros [[|] v].
  - apply sx_same. intros d. destruct (_ <=? _); reflexivity.
  - destruct (v =? 0); [apply sx_ret|]. apply sx_bind; [apply sx_read_bytes|]. intros s. apply sx_same. reflexivity.
Qed.
Ltac samex := apply sx_same; intros d; unfold dbind, obj3_ref, obj3_push, dret, dfail; cbn;
  repeat match goal with |- context [if ?c then _ else _] => destruct c; cbn | |- context [match ?x with _ => _ end] => destruct x; cbn end; reflexivity.
Lemma sx_date3 : sx a_decode_date3.
Proof.
  apply sx_bind; [apply sx_du29|]. intros [[|] v]; [samex|].
  intros d s e E. unfold abind, make_, lift, dbind, read_be. rewrite E. destruct (read_full_split 8 s e ltac:(lia)) as (a & rest & -> & R & HB).
  destruct (read_full 8 (contr (a ++ rest) e)) as [r' [b|er| |]]; cbn [fst snd] in *; exists rest; (split; [exact R|]); rewrite len_app; pose proof (len_nonneg a); (split; [lia|]); auto.
  destruct (HB b eq_refl) as [_ HL]. cbn. intros _. lia.
Qed.
Lemma sx_xml3 : sx a_decode_xmldoc3.
Proof.
  apply sx_bind; [apply sx_du29|]. intros [[|] v]; [samex|]. destruct (Z.eqb_spec v 0); [apply sx_ret|].
  apply sx_bind; [apply sx_read_into; assumption|]. intros s. samex.
Qed.
Lemma sx_bytes3 : sx a_decode_bytearray3.
Proof.
  apply sx_bind; [apply sx_du29|]. intros [[|] v]; [samex|]. destruct (Z.eqb_spec v 0); [apply sx_ret|].
  apply sx_bind; [apply sx_read_into; assumption|]. intros s. samex.
Qed.
(** The rest of Decode after a marker. *)
Lemma sx_leaf m d s e l d' r : m <> 9 -> m <> 10 -> d_r d = contr (m :: s) e -> a_decode3 d = (l, (d', r)) ->
  exists rest, d_r d' = contr rest e /\ match r with Ok _ => rest <> [] -> total l <= len (m :: s) - len rest | _ => True end.
Proof.
  intros H9 H10 E R. unfold a_decode3 in R. destruct (fuel_for d) as [|f]; [injection R as <- <- <-; exists (m :: s); split; [exact E|exact I]|].
  cbn [a_dec3] in R.
  assert (B : a_read_byte d = ([1], (set_r (contr s e) d, Ok m))).
  { pose proof (er_read_byte d) as H. rewrite (read_byte_contr _ _ _ _ E) in H. rewrite <- H.
    unfold a_read_byte, a_read_bytes, abind, make_, lift in *. destruct (read_bytes 1 d) as [d1 [x|x| |]]; reflexivity. }
  unfold abind at 1 in R. rewrite B in R.
  assert (X : forall (k : Am value) l d' r, sx k -> (let '(l', y) := k (set_r (contr s e) d) in ([1] ++ l', y)) = (l, (d', r)) ->
    exists rest, d_r d' = contr rest e /\ match r with Ok _ => rest <> [] -> total l <= len (m :: s) - len rest | _ => True end).
  { intros k l1 d1 r1 Hk Q. specialize (Hk (set_r (contr s e) d) s e eq_refl). destruct (k (set_r (contr s e) d)) as [l' [d2 r2]]. injection Q as <- <- <-.
    destruct Hk as (rest & R1 & R2 & R3). exists rest. split; [exact R1|]. destruct r2; auto. intros HN. specialize (R3 HN). rewrite len_cons. cbn [app total]. lia. }
  refine (X _ _ _ _ _ R). clear X R.
  replace (m =? 9) with false by lia. replace (m =? 10) with false by lia.
  repeat (match goal with |- sx (if ?c then _ else _) => destruct c end;
    [first [apply sx_ret | apply sx_date3 | apply sx_xml3 | apply sx_bytes3 | apply sx_bind; [first [apply sx_u29 | apply sx_read_be; lia | apply sx_string3]|intros; apply sx_ret]]|]).
  apply sx_fail.
Qed.
