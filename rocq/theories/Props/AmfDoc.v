(** Properties C123-C125: AMF0 Decode and the AMF0 specification (Spec/AmfDoc.v). *)
From Coq Require Import String.
From Verif Require Import Base.Go Base.GoFacts Base.IO Base.Float64 Proofs.IOFacts
  Model.AmfTypes Model.Amf3 Model.Amf0 Spec.Amf Spec.AmfDoc Proofs.AmfFacts Proofs.Amf0RT Proofs.Amf0More Proofs.Amf0Doc Proofs.AmfContr Proofs.Amf0Acc
  Proofs.Amf0Enc Proofs.Amf0Spec.

Definition sample_doc : doc0 :=
  A_ecma 7 [(str "a", A_strict [A_undefined; A_unsupported; A_long (str "x")]); (str "b", A_date 4607182418800017408 120);
            (str "a", A_typed (str "T") [(str "k", A_boolean 1)]); (str "x", A_xml (str "<a/>"))].
Example sample_doc_ok : doc_ok false sample_doc /\ doc_ends_empty sample_doc = false.
Proof. split; [|reflexivity]. cbv -[Z.le Z.lt]. repeat split; first [left; lia|right; lia|lia|exact I]. Qed.

(** ** C123 *)
(** A boolean other than 0 and 1 is true in the specification, and decoded as false. *)
Theorem C123_documents_refuted : forall b d rest e, 2 <= b < 256 -> d_r d = cont (layout0 (A_boolean b) ++ rest) e ->
  meaning0 (A_boolean b) = PBool true /\ decode0 d = (set_r (cont rest e) d, Ok (VBool false)).
Proof.
  intros b d rest e Hb Hr. rewrite cont_contr in *. split; [cbn [meaning0]; destruct (Z.eqb_spec b 0); [lia|reflexivity]|].
  unfold decode0, fuel_for. cbn [dec0]. erewrite dbind_ok by (eapply read_byte_contr; exact Hr). cbn [Z.eqb orb Pos.eqb].
  erewrite dbind_ok by (eapply read_byte_contr; reflexivity). destruct (Z.eqb_spec b 1); [lia|reflexivity].
Qed.
Print Assumptions C123_documents_refuted.
(** Proved: every layout without references and AMF3 values, in any decoder state, is decoded and consumed exactly,
    what was decoded before is kept, and the value is that of the specification but for those booleans. *)
Theorem C123_documents_read : forall t d rest e, doc_ok true t -> plain t -> d_r d = cont (layout0 t ++ rest) e ->
  rest <> [] \/ e_zero e = false \/ doc_ends_empty t = false ->
  exists d' v, decode0 d = (d', Ok v) /\ d_r d' = cont rest e /\ unfolds (d_heap d') v (read0 t) /\ exists new, d_heap d' = d_heap d ++ new.
Proof.
  intros t d rest e Hok Hpl Hr Hs. rewrite cont_contr in *. unfold decode0. rewrite (fuel_for_contr _ _ _ Hr).
  destruct (dec0_doc t (conj Hok Hpl) (S (length (layout0 t ++ rest))) d rest e) as (d' & v & hs & H1 & H2 & H3 & H4); [rewrite app_length; lia|exact Hr|exact Hs|].
  exists d', v. split; [exact H1|]. split; [exact H2|]. split; [|exists hs; exact H3]. apply H4. intros i _. reflexivity.
Qed.
Print Assumptions C123_documents_read.
(** Missing: those booleans. *)
Theorem C123_documents_partial : forall t d rest e, doc_ok false t -> d_r d = cont (layout0 t ++ rest) e ->
  rest <> [] \/ e_zero e = false \/ doc_ends_empty t = false ->
  exists d' v, decode0 d = (d', Ok v) /\ d_r d' = cont rest e /\ unfolds (d_heap d') v (meaning0 t) /\ exists new, d_heap d' = d_heap d ++ new.
Proof. intros t d rest e Hok Hr Hs. destruct (doc_ok_plain t Hok) as [[H1 H2] <-]. apply C123_documents_read; assumption. Qed.
Print Assumptions C123_documents_partial.
Example C123_example : exists d' v, decode0 (fresh (bytes_reader (layout0 sample_doc))) = (d', Ok v) /\ d_r d' = bytes_reader [] /\ unfolds (d_heap d') v
  (PObj [(str "a", PTyped (str "T") [(str "k", PBool true)]); (str "b", PNum 4607182418800017408); (str "x", PStr (str "<a/>"))]).
Proof.
  destruct sample_doc_ok as [H1 H2]. destruct (C123_documents_partial sample_doc (fresh (bytes_reader (layout0 sample_doc))) [] true H1) as (d' & v & E1 & E2 & E3 & _).
  - rewrite app_nil_r. reflexivity.
  - right; right; exact H2.
  - exists d', v. split; [exact E1|]. split; [exact E2|exact E3].
Qed.

(** ** C124: Decode accepts nothing but the layouts of the specification, with references to values that have begun;
    it consumes exactly the layout and answers its value (references, AMF3 values and other booleans: C60, C62, C123). *)
Theorem C124_only_documents : forall d s e d' v, is_bytes s -> d_r d = cont s e -> decode0 d = (d', Ok v) ->
  exists t rest, s = layout0 t ++ rest /\ d_r d' = cont rest e /\ doc_ok true t /\ refs_in (len (d_ref0 d)) t /\
    (plain t -> unfolds (d_heap d') v (read0 t)) /\ (doc_ok false t -> unfolds (d_heap d') v (meaning0 t)).
Proof.
  intros d s e d' v HB Hr E. rewrite cont_contr in Hr. destruct (dec0_acc (fuel_for d) d s e d' v HB Hr E) as (t & rest & -> & Ht & R & HE & T & _).
  exists t, rest. rewrite cont_contr. split; [reflexivity|]. split; [exact R|]. split; [exact Ht|]. split; [exact T|]. rewrite <- cont_contr in Hr. split; intros Hok.
  - destruct (C123_documents_read t d rest e Ht Hok Hr HE) as (d2 & v2 & E2 & _ & U & _). rewrite E in E2. inversion E2; subst. exact U.
  - destruct (C123_documents_partial t d rest e Hok Hr HE) as (d2 & v2 & E2 & _ & U & _). rewrite E in E2. inversion E2; subst. exact U.
Qed.
Print Assumptions C124_only_documents.
Example C124_example : is_bytes (layout0 sample_doc ++ [1; 2]) /\ exists d' v, decode0 (fresh (bytes_reader (layout0 sample_doc ++ [1; 2]))) = (d', Ok v).
Proof. split; [vm_compute; repeat constructor; discriminate|]. eexists _, _. vm_compute. reflexivity. Qed.

(** ** C61: what was consumed is finite unless it contains a reference or an AMF3 value. *)
Theorem C61_plain_layouts_finite_partial : forall d s e d' v, is_bytes s -> d_r d = cont s e -> decode0 d = (d', Ok v) ->
  exists t rest, s = layout0 t ++ rest /\ d_r d' = cont rest e /\ (plain t -> exists p, unfolds (d_heap d') v p).
Proof.
  intros d s e d' v HB Hr E. destruct (C124_only_documents d s e d' v HB Hr E) as (t & rest & H1 & H2 & _ & _ & H3 & _). exists t, rest. split; [exact H1|]. split; [exact H2|].
  intros Hp. exists (read0 t). apply H3, Hp.
Qed.
Print Assumptions C61_plain_layouts_finite_partial.

(** ** C125: every encoder writes the layout the specification prescribes for its argument, and returns its length. *)
Definition writes (m : Wm Z) (t : doc0) : Prop := forall w, never_fails w ->
  exists w', m w = (w', Ok (len (layout0 t))) /\ w_out w' = w_out w ++ layout0 t.
Lemma emits_writes m t : emits m (layout0 t) (len (layout0 t)) -> writes m t.
Proof. intros H w Hw. destruct (emits_run _ _ _ w H Hw) as [n E]. eexists. split; [exact E|reflexivity]. Qed.

Theorem C125_encode : forall t, ok0 t -> writes (encode0 t) (doc_of t) /\ doc_ok false (doc_of t) /\ meaning0 (doc_of t) = img0 t.
Proof.
  intros t Hok. split; [|split; [apply doc_of_ok, Hok|apply meaning_doc, Hok]]. apply emits_writes. rewrite layout_doc by exact Hok. apply encode0_emits, Hok.
Qed.
Print Assumptions C125_encode.
Theorem C125_ecma : forall fs, ok0 (TObj fs) -> len fs < 2 ^ 32 ->
  let t := A_ecma (len fs) (map (fun p => (fst p, doc_of (snd p))) fs) in
  writes (encode_ecma0 fs) t /\ doc_ok false t /\ meaning0 t = img0 (TObj fs) /\ reports (encode_ecma0 fs).
Proof.
  intros fs Hok Hl t. split; [apply emits_writes; apply encode_ecma0_emits; assumption|]. split.
  - pose proof (doc_of_ok _ Hok) as H. cbn [doc_of doc_ok] in H. cbn [t doc_ok]. split; [pose proof (len_nonneg fs); lia|exact H].
  - split; [exact (meaning_doc _ Hok)|]. apply (honest_reports any_q). unfold encode_ecma0, write_byte.
    eapply (@honest_bind _ _ (fun _ _ => True)); [hon|]. intros ? ? _. eapply (@honest_bind _ _ (fun _ _ => True)); [hon|]. intros ? ? _.
    eapply (@honest_bind _ _ (fun _ _ => True)); [|intros ? ? _; hon]. apply honest_object0, Forall_map, Forall_forall. intros x _. apply encode0_reports.
Qed.
Print Assumptions C125_ecma.
Theorem C125_others : writes encode_undefined0 A_undefined /\ writes encode_unsupported0 A_unsupported /\
  (forall i, 0 <= i < 2 ^ 16 -> writes (encode_reference0 i) (A_reference i)) /\
  (forall s, len s < 2 ^ 32 -> writes (encode_xmldoc0 s) (A_xml s)) /\
  reports encode_undefined0 /\ reports encode_unsupported0 /\ forall i, reports (encode_reference0 i).
Proof.
  assert (E1 : forall b, byte b -> emits (w* _ := write_byte b in wret 1) [b] 1).
  { intros b Hb. eapply emits_ext; [eapply emits_bind; [apply write_byte_emits, Hb|apply emits_ret]|reflexivity|reflexivity]. }
  split; [apply emits_writes; apply E1; unfold byte; lia|]. split; [apply emits_writes; apply E1; unfold byte; lia|]. split; [|split; [|split; [|split]]].
  - intros i Hi. apply emits_writes. cbn [layout0]. change (7 :: be16 i) with ([7] ++ be16 i). unfold encode_reference0.
    eapply emits_bind; [apply write_byte_emits; unfold byte; lia|]. eapply emits_ext; [eapply emits_bind; [apply emits_write|apply emits_ret]|apply app_nil_r|reflexivity].
  - intros s Hs w Hw. unfold encode_xmldoc0. destruct (emits_run _ _ _ w (write_byte_emits 15 ltac:(unfold byte; lia)) Hw) as [n ->].
    set (w1 := mkW _ _ _). pose proof (encode_longstring0_emits s false Hs) as H.
    assert (G : emits (w* n := encode_longstring0 s false in wret (n + 1)) (wire_utf8_long s) (len (15 :: wire_utf8_long s))).
    { eapply emits_ext; [eapply emits_bind; [exact H|apply emits_ret]|apply app_nil_r|]. rewrite len_cons. unfold wire_utf8_long. rewrite len_app, len_be32. lia. }
    destruct (emits_run _ _ _ w1 G) as [k ->]; [exact Hw|]. eexists. split; [reflexivity|]. cbn [w_out w1 layout0]. rewrite <- app_assoc. reflexivity.
  - apply (honest_reports any_q). unfold encode_undefined0, write_byte. hon.
  - apply (honest_reports any_q). unfold encode_unsupported0, write_byte. hon.
  - intros i. apply (honest_reports any_q). unfold encode_reference0, write_byte. hon.
Qed.
Print Assumptions C125_others.
Example C125_example : ok0 (TObj [(str "a", TNil); (str "b", TStr (str "x"))]) /\
  layout0 (A_ecma 2 [(str "a", A_null); (str "b", A_string (str "x"))]) = [8; 0; 0; 0; 2; 0; 1; 97; 5; 0; 1; 98; 2; 0; 1; 120; 0; 0; 9].
Proof.
  split; [|reflexivity]. cbn. repeat match goal with |- _ /\ _ => split end; try exact I; try (repeat constructor; unfold byte; cbn; lia); try (unfold len; cbn; lia).
  repeat constructor; cbn; intuition discriminate.
Qed.
