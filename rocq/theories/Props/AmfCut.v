(** Property C162: which cuts of the input between Read calls AMF0 decoding survives (Spec/AmfCut.v). *)
From Coq Require Import String.
From Verif Require Import Base.Go Base.GoFacts Base.IO Base.Float64 Proofs.IOFacts Model.AmfTypes Model.Amf3 Model.Amf0 Spec.Amf Spec.AmfDoc Spec.AmfCut
  Proofs.AmfFacts Proofs.AmfContr Proofs.Amf0Enc Proofs.Amf0RT Proofs.Amf0Doc Proofs.Amf0Acc Proofs.Amf0Ref Proofs.Amf0Panic Proofs.AmfCut.

(** The pieces make up the layout. *)
Theorem C162_pieces : forall t, unit_bytes (units0 t) = layout0 t.
Proof. exact unit_bytes_doc. Qed.
Print Assumptions C162_pieces.

(** ** C162: a document in chunks is decoded exactly when no string and no time zone is cut; then value, decoder and rest are
    those of the same bytes in one piece, and otherwise the call is an error. *)
Theorem C162_cuts : forall t d cs e rest, doc_ok true t -> no_avm t -> refs_in (len (d_ref0 d)) t ->
  d_r d = mkR cs e false -> Forall (fun c => c <> []) cs -> concat cs = layout0 t ++ rest ->
  rest <> [] \/ e_zero e = false \/ doc_ends_empty t = false ->
  ((exists d' v, decode0 d = (d', Ok v)) <-> ~ cut_in cs (units0 t)) /\
  (cut_in cs (units0 t) -> snd (decode0 d) = Err EOther) /\
  (forall d' v, decode0 d = (d', Ok v) -> r_rest (d_r d') = rest /\
     decode0 (set_r (cont (layout0 t ++ rest) e) d) = (set_r (cont rest e) d', Ok v)).
Proof.
  intros t d cs e rest Hok Hno HF Hr HG HC HZ.
  assert (HL : (length (layout0 t) < fuel_for d)%nat).
  { unfold fuel_for, r_rest. rewrite Hr. cbn [r_chunks]. rewrite HC, app_length. lia. }
  assert (HC' : concat cs = unit_bytes (units0 t) ++ rest) by (rewrite unit_bytes_doc; exact HC).
  assert (HE : fuel_for (set_r (contr (layout0 t ++ rest) e) d) = fuel_for d).
  { unfold fuel_for. cbn [set_r d_r]. rewrite contr_rest, Hr. unfold r_rest. cbn [r_chunks]. rewrite HC. reflexivity. }
  unfold decode0 in *. destruct (dec0_cut t Hok Hno (fuel_for d) d rest e HF HL HZ cs Hr HG HC') as [(d' & v & cs' & E & R & F & NC & _ & S)|(d' & E & C)].
  - split; [split; [intros _; exact NC|intros _; exists d', v; exact E]|]. split; [intros C; destruct (NC C)|]. intros d2 v2 E2. rewrite E in E2. injection E2 as <- <-. split.
    + rewrite R. unfold r_rest. cbn [r_chunks]. destruct F as (_ & (x & Hx & Ex) & _). rewrite HC' in Ex. apply app_eq_app in Ex.
      destruct Ex as (l & [(X & X2)|(X & X2)]); apply (f_equal len) in X as XL; rewrite len_app in XL; (destruct l as [|z l]; [cbn [app] in X2; congruence|rewrite len_cons in XL; pose proof (len_nonneg l); lia]).
    + rewrite !cont_contr, HE. rewrite unit_bytes_doc in S. exact S.
  - split; [split; [intros (d2 & v2 & E2); rewrite E in E2; discriminate|intros NC; destruct (NC C)]|]. split; [intros _; rewrite E; reflexivity|]. intros d2 v2 E2. rewrite E in E2. discriminate.
Qed.
Print Assumptions C162_cuts.
(** An object with a string: cut between its pieces and inside a number, it decodes; cut inside the string it does not. *)
Definition cut_doc : doc0 := A_object [(str "ab", A_string (str "xyz")); (str "n", A_number 17)].
Definition cut_here : list bytes := [[3; 0]; [2; 97; 98]; [2; 0; 3; 120; 121; 122; 0]; [1; 110; 0; 0; 0; 0]; [0; 0; 0; 0; 17; 0; 0]; [9; 5]].
Definition cut_there : list bytes := [[3; 0; 2; 97; 98; 2; 0; 3; 120; 121]; [122; 0; 1; 110; 0; 0; 0; 0; 0; 0; 0; 0; 17; 0; 0; 9; 5]].
Example C162_example : doc_ok true cut_doc /\ no_avm cut_doc /\ refs_in 0 cut_doc /\
  concat cut_here = layout0 cut_doc ++ [5] /\ Forall (fun c => c <> []) cut_here /\ ~ cut_in cut_here (units0 cut_doc) /\ snd (decode0 (fresh (mkR cut_here (eof true) false))) = Ok (VObj 0) /\
  concat cut_there = layout0 cut_doc ++ [5] /\ Forall (fun c => c <> []) cut_there /\ cut_in cut_there (units0 cut_doc) /\ snd (decode0 (fresh (mkR cut_there (eof true) false))) = Err EOther.
Proof.
  assert (H1 : doc_ok true cut_doc) by (cbv -[Z.le Z.lt]; repeat split; first [left; lia|right; lia|lia|exact I]).
  assert (H2 : no_avm cut_doc) by (cbn; tauto). assert (H3 : refs_in 0 cut_doc) by (cbn; tauto).
  assert (G1 : Forall (fun c => c <> []) cut_here) by (repeat constructor; discriminate). assert (G2 : Forall (fun c => c <> []) cut_there) by (repeat constructor; discriminate).
  repeat (split; [assumption || reflexivity|]). split; [|split; [reflexivity|]].
  - apply (C162_cuts cut_doc (fresh (mkR cut_here (eof true) false)) cut_here (eof true) [5] H1 H2 H3 eq_refl G1 eq_refl); [left; discriminate|].
    destruct (decode0 (fresh (mkR cut_here (eof true) false))) as [d' v] eqn:E. vm_compute in E. injection E as <- <-. eexists _, _. reflexivity.
  - repeat (split; [assumption || reflexivity|]). split; [|reflexivity].
    exists [[3; 0; 2; 97; 98; 2; 0; 3; 120; 121]], [[122; 0; 1; 110; 0; 0; 0; 0; 0; 0; 0; 0; 17; 0; 0; 9; 5]],
      [(false, [3]); (false, [0; 2]); (true, [97; 98]); (false, [2]); (false, [0; 3])], [120; 121; 122],
      [(false, [0; 1]); (true, [110]); (false, [0]); (false, be64 17); (false, [0; 0]); (true, []); (false, [9])].
    split; [reflexivity|]. split; [reflexivity|]. unfold len. cbn [length unit_bytes map concat snd app]. lia.
Qed.
