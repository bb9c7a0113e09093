(** Properties C135-C136: AMF0 references, exactly when Decode accepts and when it panics (Spec/AmfDoc.v). *)
From Coq Require Import String.
From Verif Require Import Base.Go Base.GoFacts Base.IO Base.Float64 Proofs.IOFacts
  Model.AmfTypes Model.Amf3 Model.Amf0 Spec.Amf Spec.AmfDoc Proofs.AmfFacts Proofs.AmfContr Proofs.Amf0RT Proofs.Amf0More Proofs.Amf0Doc Proofs.Amf0Acc Proofs.Amf0Panic Proofs.AmfTame Proofs.AmfHeap Proofs.Amf0Ref.

(** ** C135: a panic means that the input, up to some point, is the beginning of a document, and goes on there with a
    reference to the very next place of the reference table. *)
Theorem C135_panics_only_there : forall d s e, is_bytes s -> d_r d = cont s e -> snd (decode0 d) = Panic ->
  exists o i rest, s = open_layout o ++ layout0 (A_reference i) ++ rest /\ open_ok o /\ open_refs (len (d_ref0 d)) o /\
    0 <= i < 2 ^ 16 /\ i = len (d_ref0 d) + open_slots o.
Proof. intros d s e HB Hr E. rewrite cont_contr in Hr. exact (dec0_pan (fuel_for d) d s e HB Hr E). Qed.
Print Assumptions C135_panics_only_there.
(** Every such input without AMF3 values before that point does it. *)
Theorem C135_panics_there : forall d o i rest e, open_ok o -> open_no_avm o -> open_refs (len (d_ref0 d)) o ->
  0 <= i < 2 ^ 16 -> i = len (d_ref0 d) + open_slots o -> d_r d = cont (open_layout o ++ layout0 (A_reference i) ++ rest) e -> snd (decode0 d) = Panic.
Proof.
  intros d o i rest e H1 H2 H3 H4 H5 Hr. rewrite cont_contr in Hr. unfold decode0. rewrite (fuel_for_contr _ _ _ Hr).
  eapply (dec0_cut o i rest); try eassumption. cbn [layout0 app]. rewrite !app_length. cbn [length]. lia.
Qed.
Print Assumptions C135_panics_there.
(** Without the byte that announces an AMF3 value: exactly those inputs. *)
Theorem C135_panics_exactly : forall d s e, is_bytes s -> ~ In 17 s -> d_r d = cont s e ->
  (snd (decode0 d) = Panic <->
   exists o i rest, s = open_layout o ++ layout0 (A_reference i) ++ rest /\ open_ok o /\ open_refs (len (d_ref0 d)) o /\
     0 <= i < 2 ^ 16 /\ i = len (d_ref0 d) + open_slots o).
Proof.
  intros d s e HB Hn Hr. split; [apply C135_panics_only_there with e; assumption|]. intros (o & i & rest & -> & H1 & H2 & H3 & H4).
  apply (C135_panics_there d o i rest e); try assumption. apply open_no_17. intros X. apply Hn, in_app_iff. left. exact X.
Qed.
Print Assumptions C135_panics_exactly.
(** An array with an object and, second, a reference to place 2: array and object hold 0 and 1. *)
Definition cut_doc : open0 := O_strict 3 [A_object [(str "a", A_reference 1)]] O_here.
Example C135_example : open_ok cut_doc /\ open_no_avm cut_doc /\ open_refs 0 cut_doc /\ 2 = 0 + open_slots cut_doc /\ ~ In 17 (open_layout cut_doc ++ layout0 (A_reference 2)) /\
  snd (decode0 (fresh (bytes_reader (open_layout cut_doc ++ layout0 (A_reference 2))))) = Panic.
Proof.
  split; [cbv -[Z.le Z.lt doc_ok]; split; [lia|]; split; [|exact I]; constructor; [|constructor]; cbv -[Z.le Z.lt]; repeat split; lia|]. split; [cbn; repeat constructor|]. split; [cbn; lia|]. split; [reflexivity|].
  split; [|vm_compute; reflexivity]. vm_compute. intros H. repeat (destruct H as [H|H]; [discriminate H|]). exact H.
Qed.

(** ** C136: with references, a document is accepted exactly when each reference denotes a value that has begun. *)
Theorem C136_references_accepted : forall t d rest e, doc_ok true t -> no_avm t -> refs_in (len (d_ref0 d)) t ->
  d_r d = cont (layout0 t ++ rest) e -> rest <> [] \/ e_zero e = false \/ doc_ends_empty t = false ->
  exists d' v, decode0 d = (d', Ok v) /\ d_r d' = cont rest e /\ len (d_ref0 d') = len (d_ref0 d) + slots t.
Proof.
  intros t d rest e H1 H2 H3 Hr Hs. rewrite cont_contr in *. unfold decode0. rewrite (fuel_for_contr _ _ _ Hr).
  apply (dec0_refs t H1 H2); try assumption. rewrite app_length. lia.
Qed.
Print Assumptions C136_references_accepted.
Theorem C136_accepted_exactly : forall d s e, is_bytes s -> ~ In 17 s -> d_r d = cont s e ->
  ((exists d' v, decode0 d = (d', Ok v)) <->
   exists t rest, s = layout0 t ++ rest /\ doc_ok true t /\ refs_in (len (d_ref0 d)) t /\ (rest <> [] \/ e_zero e = false \/ doc_ends_empty t = false)).
Proof.
  intros d s e HB Hn Hr. split.
  - intros (d' & v & E). rewrite cont_contr in Hr. destruct (dec0_acc (fuel_for d) d s e d' v HB Hr E) as (t & rest & H1 & H2 & _ & H3 & H4 & _). exists t, rest. tauto.
  - intros (t & rest & -> & H1 & H2 & H3). destruct (C136_references_accepted t d rest e H1) as (d' & v & E & _); [|exact H2|exact Hr|exact H3|exists d', v; exact E].
    apply layout_no_17. intros X. apply Hn, in_app_iff. left. exact X.
Qed.
Print Assumptions C136_accepted_exactly.
Definition ref_doc : doc0 := A_strict [A_typed (str "T") [(str "k", A_reference 0)]; A_reference 2; A_ecma 0 [(str "x", A_reference 3)]].
Example C136_example : doc_ok true ref_doc /\ refs_in 0 ref_doc /\ ~ In 17 (layout0 ref_doc) /\ exists d' v, decode0 (fresh (bytes_reader (layout0 ref_doc))) = (d', Ok v) /\ d_r d' = bytes_reader [].
Proof.
  split; [cbv -[Z.le Z.lt]; repeat split; lia|]. split; [cbn; lia|]. split; [|do 2 eexists; vm_compute; split; reflexivity].
  vm_compute. intros H. repeat (destruct H as [H|H]; [discriminate H|]). exact H.
Qed.

(** ** C137: the value a reference gives. [known]: what the specification makes of the places of the table so far. *)
Definition known (d : dstate) (env : list (option pval)) : Prop :=
  Forall2 (fun o v => match o with Some p => unfolds (d_heap d) v p | None => True end) env (d_ref0 d).
(** Refuted: a reference to a strict array gives an empty array, whatever its elements. *)
Theorem C137_reference_values_refuted : forall x, doc_ok false x -> doc_ends_empty x = false -> slots x = 0 ->
  exists p, deref false [] (A_strict [A_strict [x]; A_reference 1]) = Some (PArr [PArr [p]; PArr [p]], [Some (PArr [PArr [p]; PArr [p]]); Some (PArr [p])]) /\
    exists d' v, decode0 (fresh (bytes_reader (layout0 (A_strict [A_strict [x]; A_reference 1])))) = (d', Ok v) /\ unfolds (d_heap d') v (PArr [PArr [p]; PArr []]).
Proof.
  intros x Hok He Hs. exists (meaning0 x).
  assert (D : forall lib env, deref lib env x = Some (meaning0 x, env)).
  { intros lib env. assert (P : forall (l : list Z), (forall z, In z l -> 0 <= z) -> 0 <= fold_right Z.add 0 l) by (induction l as [|z l IH]; intros H; cbn [fold_right]; [lia|]; assert (0 <= z) by (apply H; left; reflexivity); assert (0 <= fold_right Z.add 0 l) by (apply IH; intros y Hy; apply H; right; exact Hy); lia).
    assert (N : forall t, 0 <= slots t).
    { intros t. induction t as [b|b|s|fs IH| | |i|s|n fs IH|l IH|b z|s| |s|ty fs IH] using doc0_ind'; cbn [slots]; try lia; match goal with |- context [fold_right Z.add 0 ?l] => assert (0 <= fold_right Z.add 0 l); [|lia] end; apply P; intros z Hz; apply in_map_iff in Hz; destruct Hz as (q & <- & Hq); rewrite Forall_forall in IH; apply (IH q Hq). }
    assert (S : forall l, Forall (fun z => 0 <= z) l -> 0 <= fold_right Z.add 0 l) by (intros l Hl; apply P; apply Forall_forall; exact Hl).
    destruct x; try reflexivity; cbn [slots] in Hs; try (exfalso; match type of Hs with context [fold_right Z.add 0 (map ?f ?l)] => assert (0 <= fold_right Z.add 0 (map f l)); [|lia] end; apply S; apply Forall_forall; intros z Hz; apply in_map_iff in Hz; destruct Hz as (q & <- & Hq); apply N).
    - destruct Hok as [-> | ->]; destruct lib; reflexivity.
    - destruct Hok; discriminate. }
  split.
  - rewrite deref_strict. cbn [delems app]. rewrite deref_strict. cbn [delems app]. rewrite D. cbn. reflexivity.
  - assert (Hd : doc_ok true x /\ no_avm x) by (destruct (doc_ok_plain x Hok) as [[H1 H2] _]; split; [exact H1|]; apply plain_no_avm, H2).
    destruct (dec0_ref (A_strict [A_strict [x]; A_reference 1])) with (env := @nil (option pval)) (p := PArr [PArr [meaning0 x]; PArr []]) (env' := [Some (PArr []); Some (PArr [])])
      (opn := @nil nat) (fuel := S (length (layout0 (A_strict [A_strict [x]; A_reference 1])))) (d := fresh (bytes_reader (layout0 (A_strict [A_strict [x]; A_reference 1])))) (rest := @nil Z) (e := eof true)
      as (d' & v & new & E & _ & _ & G & _).
    + cbn [doc_ok map all_of fold_right]. change (len [A_strict [x]; A_reference 1]) with 2. change (len [x]) with 1. repeat split; try lia; exact (proj1 Hd).
    + cbn. tauto.
    + rewrite deref_strict. cbn [delems app]. rewrite deref_strict. cbn [delems app]. rewrite D. reflexivity.
    + constructor.
    + intros i [].
    + lia.
    + rewrite app_nil_r. reflexivity.
    + right; right. reflexivity.
    + exists d', v. split; [|apply G; intros i _ _; reflexivity]. unfold decode0. rewrite (fuel_for_contr _ (layout0 (A_strict [A_strict [x]; A_reference 1])) (eof true)) by reflexivity. exact E.
Qed.
Print Assumptions C137_reference_values_refuted.
Example C137_refuted_example : doc_ok false (A_number 0) /\ doc_ends_empty (A_number 0) = false /\ slots (A_number 0) = 0.
Proof. cbn. lia. Qed.
(** A typed object takes two places, so that references beyond it are off by one: here 2 is the object after it. *)
Definition off_by_one : doc0 := A_strict [A_typed (str "T") [(str "k", A_null)]; A_object [(str "x", A_null)]; A_reference 2].
Theorem C137_typed_shift_refuted :
  option_map fst (deref false [] off_by_one) = Some (PArr [PTyped (str "T") [(str "k", PNil)]; PObj [(str "x", PNil)]; PObj [(str "x", PNil)]]) /\
  exists d' v, decode0 (fresh (bytes_reader (layout0 off_by_one))) = (d', Ok v) /\
    unfolds (d_heap d') v (PArr [PTyped (str "T") [(str "k", PNil)]; PObj [(str "x", PNil)]; PObj [(str "k", PNil)]]).
Proof.
  split; [vm_compute; reflexivity|]. destruct (dec0_ref off_by_one) with (env := @nil (option pval)) (p := PArr [PTyped (str "T") [(str "k", PNil)]; PObj [(str "x", PNil)]; PObj [(str "k", PNil)]])
    (env' := [Some (PArr []); Some (PTyped [] []); Some (PObj [(str "k", PNil)]); Some (PObj [(str "x", PNil)])])
    (opn := @nil nat) (fuel := S (length (layout0 off_by_one))) (d := fresh (bytes_reader (layout0 off_by_one))) (rest := @nil Z) (e := eof true) as (d' & v & new & E & _ & _ & G & _).
  - cbv -[Z.le Z.lt]. repeat split; lia.
  - cbn. tauto.
  - vm_compute. reflexivity.
  - constructor.
  - intros i [].
  - lia.
  - rewrite app_nil_r. reflexivity.
  - right; right. reflexivity.
  - exists d', v. split; [|apply G; intros i _ _; reflexivity]. unfold decode0. rewrite (fuel_for_contr _ (layout0 off_by_one) (eof true)) by reflexivity. exact E.
Qed.
Print Assumptions C137_typed_shift_refuted.
(** Proved: exactly what the library makes of every document whose references do not denote an enclosing map, over any
    decoder history. *)
Theorem C137_reference_values_read : forall t d env p env' rest e, doc_ok true t -> no_avm t -> known d env -> deref true env t = Some (p, env') ->
  d_r d = cont (layout0 t ++ rest) e -> rest <> [] \/ e_zero e = false \/ doc_ends_empty t = false ->
  exists d' v, decode0 d = (d', Ok v) /\ d_r d' = cont rest e /\ unfolds (d_heap d') v p /\ known d' env' /\ exists new, d_heap d' = d_heap d ++ new.
Proof.
  intros t d env p env' rest e H1 H2 HK HD Hr Hs. rewrite cont_contr in *. unfold decode0. rewrite (fuel_for_contr _ _ _ Hr).
  assert (HT : tab_ok [] (d_heap d) env (d_ref0 d)).
  { unfold known in HK. clear - HK. unfold tab_ok. revert HK. generalize (d_ref0 d). intros tab HK. induction HK as [|o v env tab HE HK IH]; constructor; [|exact IH]. destruct o as [q|]; [|exact I].
    intros H HA. apply (unfolds_extends (d_heap d)); [|exact HE]. apply agree_extends, HA. }
  destruct (dec0_ref t H1 H2 env p env' HD [] (S (length (layout0 t ++ rest))) d rest e HT) as (d' & v & new & E & R & Hh & G & T); [intros i []|rewrite app_length; lia|exact Hr|exact Hs|].
  exists d', v. split; [exact E|]. split; [exact R|]. split; [apply G; intros i _ _; reflexivity|]. split; [|exists new; exact Hh].
  unfold known, tab_ok in *. clear - T. revert T. generalize (d_ref0 d'). intros tab T. induction T as [|o v env tab HE T IH]; constructor; [|exact IH]. destruct o as [q|]; [|exact I]. apply HE. intros i _ _. reflexivity.
Qed.
Print Assumptions C137_reference_values_read.
(** Missing: strict arrays, typed objects and the booleans of C123. Without them, the specification's value. *)
Theorem C137_reference_values_partial : forall t d env p env' rest e, doc_ok true t -> no_avm t -> only_maps t -> known d env -> deref false env t = Some (p, env') ->
  d_r d = cont (layout0 t ++ rest) e -> rest <> [] \/ e_zero e = false \/ doc_ends_empty t = false ->
  exists d' v, decode0 d = (d', Ok v) /\ d_r d' = cont rest e /\ unfolds (d_heap d') v p /\ known d' env' /\ exists new, d_heap d' = d_heap d ++ new.
Proof. intros t d env p env' rest e H1 H2 Hm HK HD Hr Hs. rewrite <- (deref_maps t Hm) in HD. eapply C137_reference_values_read; eassumption. Qed.
Print Assumptions C137_reference_values_partial.
(** Two members referring to the object of a third, one of them inside a further object. *)
Definition shared_doc : doc0 := A_object [(str "a", A_ecma 1 [(str "n", A_number 0)]); (str "b", A_reference 1); (str "c", A_object [(str "d", A_reference 1)])].
Example C137_example : doc_ok true shared_doc /\ no_avm shared_doc /\ only_maps shared_doc /\ known (fresh (bytes_reader (layout0 shared_doc))) [] /\
  option_map fst (deref false [] shared_doc) = Some (PObj [(str "a", PObj [(str "n", PNum 0)]); (str "b", PObj [(str "n", PNum 0)]); (str "c", PObj [(str "d", PObj [(str "n", PNum 0)])])]).
Proof. split; [cbv -[Z.le Z.lt]; repeat split; lia|]. split; [cbn; tauto|]. split; [cbn; tauto|]. split; [constructor|vm_compute; reflexivity]. Qed.
