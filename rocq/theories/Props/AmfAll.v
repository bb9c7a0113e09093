(** Property C163: AMF0 Decode on every input, AMF3 values included (Spec/AmfAll.v). *)
From Coq Require Import String.
From Verif Require Import Base.Go Base.GoFacts Base.IO Base.Float64 Proofs.IOFacts Model.AmfTypes Model.Amf3 Model.Amf0 Spec.Amf Spec.AmfDoc Spec.Amf3Doc Spec.Amf3Ref Spec.AmfAll
  Proofs.AmfFacts Proofs.AmfContr Proofs.Amf0More Proofs.Amf3Spec Proofs.Amf3Ref Proofs.AmfAll Props.Amf0 Props.Amf3Ref.
Local Ltac Zify.zify_post_hook ::= Z.div_mod_to_equations.

(** ** C163: Decode accepts exactly the inputs that begin with a document, its AMF3 values included, and leaves the rest. *)
Theorem C163_accepted_exactly : forall W d s e, is_bytes s -> d_r d = cont s e -> knows W d ->
  (forall d' v, decode0 d = (d', Ok v) -> exists t c W' rest, begins_with W (len (d_ref0 d)) (e_zero e) s t c W' rest /\
     d_r d' = cont rest e /\ len (d_ref0 d') = len (d_ref0 d) + slots t /\ knows W' d') /\
  (forall t c W' rest, begins_with W (len (d_ref0 d)) (e_zero e) s t c W' rest -> exists d' v, decode0 d = (d', Ok v) /\
     d_r d' = cont rest e /\ len (d_ref0 d') = len (d_ref0 d) + slots t /\ knows W' d').
Proof.
  intros W d s e HB Hr HK. rewrite cont_contr in Hr. apply relw_knows in HK. split.
  - intros d' v E. destruct (dec0_accw (fuel_for d) d s e d' v W HB Hr HK E) as (t & c & W' & rest & H1 & H2 & H3 & H4 & H5 & H6 & H7 & H8 & H9).
    exists t, c, W', rest. split; [unfold begins_with; tauto|]. rewrite cont_contr. split; [exact H4|]. split; [exact H7|]. apply relw_knows, H9.
  - intros t c W' rest (H1 & H2 & H3 & H4 & H5 & H6). unfold decode0. rewrite (fuel_for_contr _ _ _ Hr).
    destruct (dec0_refsw t H3 (S (length s)) d s c W W' rest e H4 H5 HK) as (d' & v & E & R & T & K); [|exact H1|exact H2|exact Hr|exact H6|].
    { apply (f_equal (@length Z)) in H1. rewrite !app_length, repeat_length in H1. lia. }
    exists d', v. rewrite cont_contr. split; [exact E|]. split; [exact R|]. split; [exact T|]. apply relw_knows, K.
Qed.
Print Assumptions C163_accepted_exactly.
(** It panics exactly on the inputs that refer to the very next place. *)
Theorem C163_panics_exactly : forall W d s e, is_bytes s -> d_r d = cont s e -> knows W d ->
  (snd (decode0 d) = Panic <-> self_refers W (len (d_ref0 d)) s).
Proof.
  intros W d s e HB Hr HK. rewrite cont_contr in Hr. apply relw_knows in HK. split.
  - intros E. exact (dec0_panw (fuel_for d) d s e W HB Hr HK E).
  - intros (o & i & rest & W' & -> & H1 & H2 & H3 & H4 & H5). unfold decode0. rewrite (fuel_for_contr _ _ _ Hr).
    eapply (dec0_cutw o i rest); try eassumption. cbn [layout0 app]. rewrite !app_length. cbn [length]. lia.
Qed.
Print Assumptions C163_panics_exactly.
(** Every other input is an error. *)
Theorem C163_errors_exactly : forall W d s e, is_bytes s -> d_r d = cont s e -> knows W d ->
  ((exists er, snd (decode0 d) = Err er) <->
   (forall t c W' rest, ~ begins_with W (len (d_ref0 d)) (e_zero e) s t c W' rest) /\ ~ self_refers W (len (d_ref0 d)) s).
Proof.
  intros W d s e HB Hr HK. destruct (C163_accepted_exactly W d s e HB Hr HK) as [A1 A2]. pose proof (C163_panics_exactly W d s e HB Hr HK) as P. split.
  - intros (er & E). split; [|intros X; apply P in X; congruence]. intros t c W' rest X. destruct (A2 _ _ _ _ X) as (d' & v & E' & _). rewrite E' in E. discriminate E.
  - intros [N1 N2]. pose proof (proj1 (C54_decode_terminates d)) as T. destruct (decode0 d) as [d' [v|er| |]] eqn:E; cbn [snd] in *; [exfalso|eauto|exfalso; apply N2, P; reflexivity|congruence].
    destruct (A1 d' v eq_refl) as (t & c & W' & rest & X & _). exact (N1 _ _ _ _ X).
Qed.
Print Assumptions C163_errors_exactly.
(** A strict array: an object with an AMF3 string, the same string by its reference, and an AMF3 byte array of four bytes the last two
    of which are missing. *)
Definition doc163 : doc0 := A_strict [A_object [(str "k", A_avmplus [6; 5; 104; 105])]; A_avmplus [6; 0]; A_avmplus [12; 9; 5; 6; 0; 0]].
Definition sample163 : bytes := [10; 0; 0; 0; 3; 3; 0; 1; 107; 17; 6; 5; 104; 105; 0; 0; 9; 17; 6; 0; 17; 12; 9; 5; 6].
Example C163_example : (exists W', begins_with new_world 0 true sample163 doc163 2 W' []) /\ is_bytes sample163 /\
  exists d', decode0 (fresh (bytes_reader sample163)) = (d', Ok (VArr [VObj 0%nat; VStr [104; 105]; VBytes [5; 6; 0; 0]])).
Proof.
  split; [|split; [repeat constructor; unfold byte; lia|eexists; vm_compute; reflexivity]]. eexists. split; [vm_compute; reflexivity|]. split; [right; reflexivity|].
  split; [cbv -[Z.le Z.lt]; repeat split; lia|]. split; [cbn; tauto|]. split; [|right; right; reflexivity].
  cbn [embedded doc163 map chain snd]. exists 0%nat, (mkWorld (mkTables [[104; 105]] []) []), 2%nat. split; [|split; [|split; [reflexivity|left; reflexivity]]].
  - split; [reflexivity|]. exists 0%nat, (mkWorld (mkTables [[104; 105]] []) []), 0%nat. split; [|repeat split; left; reflexivity].
    exists (PStr [104; 105]). eapply (vr3_string Library new_world [5; 104; 105] [104; 105] [[104; 105]]). apply (vr_lit [] [104; 105] [5]); [discriminate|apply (u29_1 5); lia].
  - exists 0%nat, (mkWorld (mkTables [[104; 105]] []) []), 2%nat. split; [|split; [|split; [reflexivity|left; reflexivity]]].
    + exists (PStr [104; 105]). eapply (vr3_string Library (mkWorld (mkTables [[104; 105]] []) []) [0] [104; 105] [[104; 105]]). apply (vr_ref _ 0); [apply (u29_1 0); lia|reflexivity].
    + exists 2%nat, (mkWorld (mkTables [[104; 105]] []) [Some (PBytes [5; 6; 0; 0])]), 0%nat. split; [|repeat split; right; reflexivity].
      exists (PBytes [5; 6; 0; 0]). apply (vr3_bytes Library (mkWorld (mkTables [[104; 105]] []) []) [9] [5; 6; 0; 0] 2); [apply (u29_1 9); lia|right; cbn; lia].
Qed.
(** After an AMF3 array, which takes no place of the AMF0 table, a reference to the next place. *)
Example C163_panic_example : self_refers new_world 0 [10; 0; 0; 0; 2; 17; 9; 1; 1; 7; 0; 1].
Proof.
  exists (O_strict 2 [A_avmplus [9; 1; 1]] O_here), 1, []. eexists. split; [reflexivity|]. split; [cbv -[Z.le Z.lt doc_ok]; split; [lia|]; split; [constructor; [exact (conj eq_refl I) || exact I || reflexivity|constructor]|exact I]|].
  split; [cbn; tauto|]. split; [|split; [lia|reflexivity]]. cbn [open_embedded map]. eexists. split; [|reflexivity]. cbn [chain]. exists 0%nat. eexists. exists 0%nat. split; [|repeat split; left; reflexivity].
  exists (PEcma [] []). eapply (vr3_array Library new_world [1] [1] [] _ [] 0 []); [apply (u29_1 1); lia|reflexivity|apply (asr3_nil Library _ [1] []); apply vr_empty, (u29_1 1); lia|constructor].
Qed.
