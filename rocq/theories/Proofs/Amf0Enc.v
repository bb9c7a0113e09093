(** AMF0 encoder: writes the wire format, returns its length. *)
From Verif Require Import Base.Go Base.GoFacts Base.IO Base.Float64 Proofs.IOFacts Proofs.Float64
  Model.AmfTypes Model.Amf3 Model.Amf0 Spec.Amf Proofs.AmfFacts.

Lemma write_byte_emits b : byte b -> emits (write_byte b) [b] tt.
Proof. intros H. unfold write_byte. rewrite u8_id by exact H. apply emits_write. Qed.

Lemma encode_number_emits b : emits (encode_number b) (0 :: be64 b) 9.
Proof.
  unfold encode_number. change (0 :: be64 b) with ([0] ++ be64 b).
  eapply emits_bind; [apply write_byte_emits; unfold byte; lia|].
  eapply emits_ext; [eapply emits_bind; [apply emits_write|apply emits_ret]|apply app_nil_r|reflexivity].
Qed.

Lemma encode_string0_emits s m : len s <= 65535 ->
  emits (encode_string0 s m) ((if m then [2] else []) ++ wire_utf8 s) ((if m then 1 else 0) + 2 + len s).
Proof.
  intros Hs. unfold encode_string0, wire_utf8. pose proof (len_nonneg s).
  rewrite u16_id by lia.
  eapply emits_bind with (a := if m then 1 else 0).
  - destruct m.
    + eapply emits_ext; [eapply emits_bind; [apply write_byte_emits; unfold byte; lia|apply emits_ret]|reflexivity|reflexivity].
    + apply emits_ret.
  - eapply emits_bind; [apply emits_write|].
    eapply emits_ext; [eapply emits_bind; [apply emits_write|apply emits_ret]|apply app_nil_r|reflexivity].
Qed.

Lemma encode_longstring0_emits s m : len s < 4294967296 ->
  emits (encode_longstring0 s m) ((if m then [12] else []) ++ wire_utf8_long s) ((if m then 1 else 0) + 4 + len s).
Proof.
  intros Hs. unfold encode_longstring0, wire_utf8_long. pose proof (len_nonneg s).
  rewrite u32_id by lia.
  eapply emits_bind with (a := if m then 1 else 0).
  - destruct m.
    + eapply emits_ext; [eapply emits_bind; [apply write_byte_emits; unfold byte; lia|apply emits_ret]|reflexivity|reflexivity].
    + apply emits_ret.
  - eapply emits_bind; [apply emits_write|].
    eapply emits_ext; [eapply emits_bind; [apply emits_write|apply emits_ret]|apply app_nil_r|reflexivity].
Qed.

Lemma w_sum_emits (ms : list (Wm Z)) (ss : list bytes) :
  Forall2 (fun m s => emits m s (len s)) ms ss ->
  emits (w_sum ms) (concat ss) (len (concat ss)).
Proof.
  induction 1 as [|m s ms ss Hm _ IH]; cbn [w_sum concat]; [apply emits_ret|].
  eapply emits_bind; [exact Hm|].
  eapply emits_ext; [eapply emits_bind; [exact IH|apply emits_ret]|apply app_nil_r|].
  symmetry. apply len_app.
Qed.

Lemma encode_fields0_emits (fs : list (bytes * Wm Z)) (ss : list bytes) :
  Forall2 (fun f s => len (fst f) <= 65535 /\ emits (snd f) s (len s)) fs ss ->
  emits (encode_fields0 fs)
        (concat (map (fun p => wire_utf8 (fst p) ++ snd p) (combine (map fst fs) ss)))
        (len (concat (map (fun p => wire_utf8 (fst p) ++ snd p) (combine (map fst fs) ss)))).
Proof.
  induction 1 as [|[k m] s fs ss [Hk Hm] _ IH]; cbn [encode_fields0 map combine concat fst snd]; [apply emits_ret|].
  cbn [fst snd] in Hk, Hm.
  rewrite <- app_assoc.
  eapply emits_bind; [apply (encode_string0_emits k false Hk)|].
  eapply emits_bind; [exact Hm|].
  eapply emits_ext; [eapply emits_bind; [exact IH|apply emits_ret]|apply app_nil_r|].
  cbn [app]. unfold wire_utf8. rewrite !len_app, len_be16. lia.
Qed.

Lemma encode_object0_emits fs ss mk :
  Forall2 (fun f s => len (fst f) <= 65535 /\ emits (snd f) s (len s)) fs ss ->
  let body := concat (map (fun p => wire_utf8 (fst p) ++ snd p) (combine (map fst fs) ss)) ++ [0; 0; 9] in
  emits (encode_object0 fs mk) ((if mk then [3] else []) ++ body) ((if mk then 1 else 0) + len body).
Proof.
  intros HF body. unfold encode_object0.
  eapply emits_bind with (a := if mk then 1 else 0).
  - destruct mk.
    + eapply emits_ext; [eapply emits_bind; [apply write_byte_emits; unfold byte; lia|apply emits_ret]|reflexivity|reflexivity].
    + apply emits_ret.
  - unfold body. eapply emits_bind; [apply encode_fields0_emits; exact HF|].
    change [0; 0; 9] with ((if false then [2] else []) ++ wire_utf8 [] ++ [9]).
    rewrite app_assoc.
    eapply emits_bind; [apply (encode_string0_emits [] false); rewrite len_nil; lia|].
    eapply emits_ext; [eapply emits_bind; [apply write_byte_emits; unfold byte; lia|apply emits_ret]|apply app_nil_r|].
    rewrite !len_app. change (len (if false then [2] else [])) with 0. change (len (wire_utf8 [])) with 2.
    change (len [9]) with 1. change (@len Z []) with 0. lia.
Qed.

Lemma wire_fields_combine (fs : list (bytes * tree)) :
  map (fun p => wire_utf8 (fst p) ++ snd p)
      (combine (map fst (map (fun p => (fst p, encode0 (snd p))) fs)) (map (fun p => wire0 (snd p)) fs))
  = map (fun p => wire_utf8 (fst p) ++ wire0 (snd p)) fs.
Proof. induction fs as [|[k t] fs IH]; cbn; [reflexivity|]. f_equal. exact IH. Qed.

Lemma encode_bytes_emits s :
  Forall2 (fun m x => emits m x (len x)) (map (fun b => encode_number (f64_of_Z b)) s)
          (map (fun b => 0 :: be64 (f64_of_Z b)) s).
Proof.
  induction s as [|b s IH]; cbn [map]; constructor; [|exact IH].
  eapply emits_ext; [apply encode_number_emits|reflexivity|].
  rewrite len_cons, len_be64. reflexivity.
Qed.

Lemma flat_map_concat {A B} (f : A -> list B) l : flat_map f l = concat (map f l).
Proof. induction l; cbn; congruence. Qed.

Theorem encode0_emits t : ok0 t -> emits (encode0 t) (wire0 t) (len (wire0 t)).
Proof.
  induction t as [|b|b|w z|w z|s|s|s|l IH|fs IH|ty fs IH|] using tree_ind'; cbn [ok0]; intros Hok;
    try contradiction; cbn [encode0 wire0].
  - (* nil *) unfold encode_null.
    eapply emits_ext; [eapply emits_bind; [apply write_byte_emits; unfold byte; lia|apply emits_ret]|reflexivity|reflexivity].
  - unfold encode_boolean. change [1; if b then 1 else 0] with ([1] ++ [if b then 1 else 0]).
    eapply emits_bind; [apply write_byte_emits; unfold byte; lia|].
    eapply emits_ext; [eapply emits_bind; [apply emits_write|apply emits_ret]|apply app_nil_r|].
    destruct b; reflexivity.
  - eapply emits_ext; [apply encode_number_emits|reflexivity|]. rewrite len_cons, len_be64. reflexivity.
  - eapply emits_ext; [apply encode_number_emits|reflexivity|]. rewrite len_cons, len_be64. reflexivity.
  - eapply emits_ext; [apply encode_number_emits|reflexivity|]. rewrite len_cons, len_be64. reflexivity.
  - destruct (len s <=? 65535) eqn:E.
    + eapply emits_ext; [apply (encode_string0_emits s true); lia|reflexivity|].
      rewrite len_cons. unfold wire_utf8. rewrite len_app, len_be16. lia.
    + eapply emits_ext; [apply (encode_longstring0_emits s true); lia|reflexivity|].
      rewrite len_cons. unfold wire_utf8_long. rewrite len_app, len_be32. lia.
  - (* []byte *) destruct Hok as [_ Hlen]. unfold encode_strict0.
    rewrite len_map. rewrite u32_id by (pose proof (len_nonneg s); lia).
    change (10 :: be32 (len s) ++ ?x) with ([10] ++ be32 (len s) ++ x).
    eapply emits_bind; [apply write_byte_emits; unfold byte; lia|].
    eapply emits_bind; [apply emits_write|].
    eapply emits_ext; [eapply emits_bind; [apply w_sum_emits; apply encode_bytes_emits|apply emits_ret]| |].
    + rewrite app_nil_r. symmetry. apply flat_map_concat.
    + rewrite !len_app, len_be32, flat_map_concat. change (len [10]) with 1. lia.
  - (* array *) destruct Hok as [Hlen Hall]. apply all_of_map in Hall. unfold encode_strict0.
    rewrite len_map. rewrite u32_id by (pose proof (len_nonneg l); lia).
    change (10 :: be32 (len l) ++ ?x) with ([10] ++ be32 (len l) ++ x).
    eapply emits_bind; [apply write_byte_emits; unfold byte; lia|].
    eapply emits_bind; [apply emits_write|].
    eapply emits_ext; [eapply emits_bind; [apply (w_sum_emits (map encode0 l) (map wire0 l))|apply emits_ret]| |].
    + clear Hlen. induction l as [|x l IHl]; cbn [map]; constructor; inversion IH; inversion Hall; subst; auto.
    + apply app_nil_r.
    + rewrite !len_app, len_be32. change (len [10]) with 1. lia.
  - (* object *) destruct Hok as [Hnd Hall]. apply all_of_map in Hall.
    eapply emits_ext; [apply (encode_object0_emits _ (map (fun p => wire0 (snd p)) fs) true)| |].
    + clear Hnd. induction fs as [|[k t] fs IHfs]; cbn [map]; constructor; inversion IH; inversion Hall; subst; auto.
      cbn [fst snd] in *. split; [lia|]. tauto.
    + cbv zeta. rewrite wire_fields_combine. reflexivity.
    + cbv zeta. rewrite wire_fields_combine. rewrite len_cons. reflexivity.
  - (* typed object *) destruct Hok as (Hty & Htl & Hnd & Hall). apply all_of_map in Hall.
    unfold encode_typed0. change (16 :: ?a ++ ?b) with ([16] ++ a ++ b).
    eapply emits_bind; [apply write_byte_emits; unfold byte; lia|].
    eapply emits_bind; [apply (encode_string0_emits ty false Htl)|].
    eapply emits_ext; [eapply emits_bind; [apply (encode_object0_emits _ (map (fun p => wire0 (snd p)) fs) false)|apply emits_ret]| |].
    + clear Hnd. induction fs as [|[k t] fs IHfs]; cbn [map]; constructor; inversion IH; inversion Hall; subst; auto.
      cbn [fst snd] in *. split; [lia|]. tauto.
    + cbv zeta. rewrite wire_fields_combine. cbn [app]. apply app_nil_r.
    + cbv zeta. rewrite wire_fields_combine. unfold wire_utf8. rewrite !len_app, len_be16.
      change (len [16]) with 1. lia.
Qed.
