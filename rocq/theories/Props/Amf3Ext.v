(** Property C121: AMF3 objects whose class reads itself (externalizable) and the handlers registered for them. *)
From Coq Require Import String.
From Verif Require Import Base.Go Base.GoFacts Base.IO Base.Float64 Proofs.IOFacts
  Model.AmfTypes Model.Amf3 Model.Amf3Ext Spec.Amf Proofs.AmfFacts Proofs.Amf0RT Proofs.Amf3Enc Proofs.Amf3RT Proofs.Amf3More Proofs.Amf3Ext.

(** What the calls of a history answer from a decoder without handlers. *)
Fixpoint answers (d : dstate) (os : list ext_op) : list (list value * res unit) :=
  match os with
  | [] => []
  | ERegister _ _ :: os' => ([], Ok tt) :: answers d os'
  | EDecode r :: os' =>
      let '(d', x) := decode3 (set_r r d) in
      match x with Ok v => ([v], Ok tt) | Err e => ([], Err e) | Panic => ([], Panic) | OutOfFuel => ([], OutOfFuel) end :: answers d' os'
  | EBatch r :: os' => let '(d', x) := decode_batch3 (set_r r d) in x :: answers d' os'
  end.
(** The decoder, with its handlers, after some history of calls. *)
Definition used (hs : handlers) (d : dstate) := exists r os rs, ext_run (no_handlers, fresh r) os = (hs, d, rs).

Lemma ext_run_noext : forall os hs d, noext d ->
  noext (snd (fst (ext_run (hs, d) os))) /\ snd (ext_run (hs, d) os) = answers d os.
Proof.
  induction os as [|o os IH]; intros hs d HD; [split; [exact HD|reflexivity]|].
  cbn [ext_run answers]. destruct o as [n f|r|r]; cbn [ext_step].
  - specialize (IH (register n f hs) d HD). destruct (ext_run (register n f hs, d) os) as [[hs2 d2] rs]. cbn [fst snd] in *. destruct IH as [H1 H2]. split; [exact H1|now rewrite H2].
  - destruct (eqn_decode3 hs (set_r r d) HD) as [E H]. rewrite E. destruct (decode3 (set_r r d)) as [d1 x]. cbn [fst] in H.
    specialize (IH hs d1 H). destruct x; cbn; destruct (ext_run (hs, d1) os) as [[hs2 d2] rs]; cbn [fst snd] in *; destruct IH as [H1 H2]; (split; [exact H1|now rewrite H2]).
  - unfold decode_batch3_h, decode_batch3. destruct (eqn_batch3 hs (fuel_for (set_r r d)) (set_r r d) HD) as [E H]. rewrite E.
    destruct (batch3 (fuel_for (set_r r d)) (set_r r d)) as [d1 x]. cbn [fst] in H.
    specialize (IH hs d1 H). destruct (ext_run (hs, d1) os) as [[hs2 d2] rs]; cbn [fst snd] in *; destruct IH as [H1 H2]. split; [exact H1|now rewrite H2].
Qed.

(** ** C121: whatever is registered and whatever is decoded, every call answers as if nothing were registered. *)
Theorem C121_handlers_called_refuted : forall os r, snd (ext_run (no_handlers, fresh r) os) = answers (fresh r) os.
Proof. intros os r. apply ext_run_noext. constructor. Qed.
Print Assumptions C121_handlers_called_refuted.

(** An externalizable object of any class, a built-in one or one with a handler, is returned without members, and what
    its class wrote is left in the input to be taken for the next values. *)
Theorem C121_externalizable_refuted : forall hs d ty body e, used hs d -> len ty < 2 ^ 28 ->
  exists d', decode3_h hs (set_r (cont ([10; 7] ++ wire_str3 ty ++ body) e) d) = (d', Ok (VObj (length (d_heap d)))) /\
             d_heap d' = d_heap d ++ [[]] /\ d_r d' = cont body e.
Proof.
  intros hs d ty body e (r0 & os & rs & U) Hty. change (2 ^ 28) with 268435456 in Hty.
  assert (HD : noext d). { destruct (ext_run_noext os no_handlers (fresh r0)) as [H _]; [constructor|]. rewrite U in H. exact H. }
  rewrite !cont_contr. destruct (eqn_decode3 hs (set_r (contr ([10; 7] ++ wire_str3 ty ++ body) e) d) HD) as [-> _].
  unfold decode3, fuel_for. cbn [dec3]. generalize (length (r_rest (d_r (set_r (contr ([10; 7] ++ wire_str3 ty ++ body) e) d)))). intros f.
  erewrite dbind_ok by (apply read_byte_contr; reflexivity). cbn [Z.eqb orb Pos.eqb].
  unfold decode_object3. erewrite dbind_ok by (eapply (decode_u29_contr _ 3); [lia|reflexivity]). cbn iota.
  unfold decode_trait. change (Z.land 3 1 =? 0) with false. cbv iota zeta.
  rewrite ?set_r_set_r. unfold dbind at 1 2.
  assert (Es := decode_string3_contr (set_r (contr (wire_str3 ty ++ body) e) d) ty body e Hty eq_refl).
  rewrite ?set_r_set_r in Es. rewrite Es.
  change (Z.shiftr 3 3) with 0.
  destruct f; cbn [loop_n Z.leb]; (eexists; split; [reflexivity|split; reflexivity]).
Qed.
Print Assumptions C121_externalizable_refuted.
(** A handler for class "P" that answers true and reads nothing, and an object of that class: the answer is an empty
    object. The same decoder and input with the bit of the format would answer true. *)
Example C121_handler_ex :
  snd (ext_run (no_handlers, fresh (bytes_reader []))
        [ERegister (str "P") (dret (VBool true)); EDecode (bytes_reader ([10; 7] ++ wire_str3 (str "P")))])
  = [([], Ok tt); ([VObj 0], Ok tt)].
Proof. reflexivity. Qed.
(** An ArrayCollection of the one string "a": its array is never decoded into it, Decode answers an empty object and
    the batch goes on with the array. *)
Example C121_collection_ex :
  let ty := str "flex.messaging.io.ArrayCollection" in
  snd (ext_run (no_handlers, fresh (bytes_reader [])) [EBatch (bytes_reader ([10; 7] ++ wire_str3 ty ++ [9; 3; 1; 6; 3; 97]))])
  = [([VObj 0; VEcma [VStr (str "a")] (Some 1%nat)], Ok tt)].
Proof. vm_compute. reflexivity. Qed.
Example C121_used_ex : used (register (str "P") (dret VNil) no_handlers) (fresh (bytes_reader [])).
Proof. exists (bytes_reader []), [ERegister (str "P") (dret VNil)], [([], Ok tt)]. reflexivity. Qed.
