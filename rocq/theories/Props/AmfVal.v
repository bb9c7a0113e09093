(** Properties C164 and C165: the values AMF0 Decode gives for documents with references and embedded AMF3 values
    (Spec/AmfVal.v), and which of them are finite. *)
From Coq Require Import String.
From Verif Require Import Base.Go Base.GoFacts Base.IO Base.Float64 Proofs.IOFacts Model.AmfTypes Model.Amf3 Model.Amf0 Spec.Amf Spec.AmfDoc Spec.Amf3Doc Spec.Amf3Ref Spec.AmfAll Spec.AmfVal
  Proofs.AmfFacts Proofs.AmfContr Proofs.Amf0More Proofs.AmfHeap Proofs.Amf3Spec Proofs.Amf3Ref Proofs.AmfAll Proofs.Amf0Ref Proofs.AmfVal Proofs.AmfCycle Props.Amf3Ref Props.AmfAll.
Local Ltac Zify.zify_post_hook ::= Z.div_mod_to_equations.

Lemma known_tab d env : known d env -> tab_ok [] (d_heap d) env (d_ref0 d).
Proof.
  unfold known, tab_ok. generalize (d_ref0 d). intros tab HK. induction HK as [|o v env tab HE HK IH]; constructor; [|exact IH]. destruct o as [q|]; [|exact I].
  intros H HA. apply (unfolds_extends (d_heap d)); [|exact HE]. apply agree_extends, HA.
Qed.
Lemma tab_known d env : tab_ok [] (d_heap d) env (d_ref0 d) -> known d env.
Proof.
  unfold known, tab_ok. generalize (d_ref0 d). intros tab T. induction T as [|o v env tab HE T IH]; constructor; [|exact IH]. destruct o as [q|]; [|exact I]. apply HE. intros i _ _. reflexivity.
Qed.

(** ** C164: an input that begins with a document is read as the value the document has. *)
Theorem C164_values : forall W env d s e t c p W' env' rest, d_r d = cont s e -> knows W d -> known d env ->
  begins_with W (len (d_ref0 d)) (e_zero e) s t c W' rest -> reads W env t c p W' env' ->
  exists d' v, decode0 d = (d', Ok v) /\ d_r d' = cont rest e /\ unfolds (d_heap d') v p /\ knows W' d' /\ known d' env' /\ exists new, d_heap d' = d_heap d ++ new.
Proof.
  intros W env d s e t c p W' env' rest Hr HW HK (H1 & H2 & H3 & H4 & H5 & H6) HR. rewrite cont_contr in *. apply relw_knows in HW. unfold decode0. rewrite (fuel_for_contr _ _ _ Hr).
  destruct (proj1 dec0_val _ _ _ _ _ _ _ HR H3 [] (S (length s)) d s rest e (known_tab _ _ HK)) as (d' & v & new & E & R & Hh & G & T & K); [intros i []|exact HW| |exact H1|exact H2|exact Hr|exact H6|].
  { apply (f_equal (@length Z)) in H1. rewrite !app_length, repeat_length in H1. lia. }
  exists d', v. split; [exact E|]. split; [exact R|]. split; [apply G; intros i _ _; reflexivity|]. split; [apply relw_knows, K|]. split; [apply tab_known, T|]. exists new. exact Hh.
Qed.
Print Assumptions C164_values.
(** Every document has such a value, unless a reference in it denotes a map that contains it, or a map whose value is not known. *)
Theorem C164_has_value : forall W env n e s t c W' rest, begins_with W n e s t c W' rest -> len env = n -> (forall i, nth_error env i <> Some None) -> refers_up [] n t = false ->
  exists p env', reads W env t c p W' env' /\ len env' = n + slots t /\ (forall i, nth_error env' i <> Some None).
Proof.
  intros W env n e s t c W' rest (_ & _ & H3 & H4 & H5 & _) <- HG HU. destruct (read_all t W c W' env [] H5 H3 H4 HU) as (p & env' & R & L & G); [intros i E; exact (HG i E)|intros i []|].
  exists p, env'. split; [exact R|]. split; [exact L|]. intros i E. exact (G i E).
Qed.
Print Assumptions C164_has_value.

(** ** C165: the values the decoder's table holds being finite, the value of an accepted input is finite exactly if no reference
    in its document denotes a map that contains it. *)
Definition finite (h : list omap) (v : value) : Prop := exists p, unfolds h v p.
Lemma same_len {A B} (R : A -> B -> Prop) l m : Forall2 R l m -> length l = length m.
Proof. induction 1; cbn [length]; congruence. Qed.
Lemma finite_env h tab : Forall (finite h) tab -> exists env : list (option pval), Forall2 (fun o v => match o with Some p => unfolds h v p | None => True end) env tab /\ (forall i, nth_error env i <> Some None).
Proof.
  induction 1 as [|v tab [p Hp] _ (env & F & G)]; [exists []; split; [constructor|intros [|i]; discriminate]|].
  exists (Some p :: env). split; [constructor; [exact Hp|exact F]|]. intros [|i]; [discriminate|apply G].
Qed.
Lemma env_finite h (env : list (option pval)) tab : Forall2 (fun o v => match o with Some p => unfolds h v p | None => True end) env tab -> (forall i, nth_error env i <> Some None) -> Forall (finite h) tab.
Proof.
  induction 1 as [|o v env tab HE F IH]; intros G; [constructor|]. constructor; [|apply IH; intros i; exact (G (S i))]. destruct o as [p|]; [exists p; exact HE|exfalso; apply (G 0%nat); reflexivity].
Qed.
Theorem C165_finite_exactly : forall W d s e t c W' rest d' v, d_r d = cont s e -> knows W d -> Forall (finite (d_heap d)) (d_ref0 d) ->
  begins_with W (len (d_ref0 d)) (e_zero e) s t c W' rest -> distinct_names t -> decode0 d = (d', Ok v) ->
  (finite (d_heap d') v <-> refers_up [] (len (d_ref0 d)) t = false).
Proof.
  intros W d s e t c W' rest d' v Hr HW HF HB HD E. split.
  - intros [p Hp]. destruct (refers_up [] (len (d_ref0 d)) t) eqn:U; [exfalso|reflexivity]. destruct HB as (H1 & H2 & H3 & H4 & H5 & H6). rewrite cont_contr in Hr. apply relw_knows in HW. unfold decode0 in E. rewrite (fuel_for_contr _ _ _ Hr) in E.
    assert (HL : (length (layout0 t) < S (length s) + c)%nat) by (apply (f_equal (@length Z)) in H1; rewrite !app_length, repeat_length in H1; lia).
    refine (cycle_all t H3 HD (S (length s)) d s c W W' rest e d' v H4 H5 HW HL H1 H2 Hr H6 E [] [] _ _ U (d_heap d') (S (psize p)) _ _ p (le_n _) Hp); [intros i []|intros i []|intros i _ _; reflexivity|intros L []].
  - intros U. destruct (finite_env _ _ HF) as (env & HK & HG).
    destruct (C164_has_value W env _ _ _ _ _ _ _ HB) as (p & env' & R & _); [unfold len; rewrite (same_len _ _ _ HK); reflexivity|exact HG|exact U|].
    destruct (C164_values W env d s e t c p W' env' rest Hr HW HK HB R) as (d2 & v2 & E2 & _ & X & _). rewrite E in E2. injection E2 as <- <-. exists p. exact X.
Qed.
Print Assumptions C165_finite_exactly.
(** Then the table holds finite values again. *)
Theorem C165_stays_finite : forall W d s e t c W' rest d' v, d_r d = cont s e -> knows W d -> Forall (finite (d_heap d)) (d_ref0 d) ->
  begins_with W (len (d_ref0 d)) (e_zero e) s t c W' rest -> refers_up [] (len (d_ref0 d)) t = false -> decode0 d = (d', Ok v) ->
  finite (d_heap d') v /\ Forall (finite (d_heap d')) (d_ref0 d').
Proof.
  intros W d s e t c W' rest d' v Hr HW HF HB U E. destruct (finite_env _ _ HF) as (env & HK & HG).
  destruct (C164_has_value W env _ _ _ _ _ _ _ HB) as (p & env' & R & _ & G); [unfold len; rewrite (same_len _ _ _ HK); reflexivity|exact HG|exact U|].
  destruct (C164_values W env d s e t c p W' env' rest Hr HW HK HB R) as (d2 & v2 & E2 & _ & X & _ & K & _). rewrite E in E2. injection E2 as <- <-. split; [exists p; exact X|]. exact (env_finite _ _ _ K G).
Qed.
Print Assumptions C165_stays_finite.
(** Names matter: an object with two members of one name keeps the last, which may do away with a cyclic one. *)
Theorem C165_duplicates_refuted : exists d' v, refers_up [] 0 (A_object [(str "a", A_reference 0); (str "a", A_null)]) = true /\
  decode0 (fresh (bytes_reader (layout0 (A_object [(str "a", A_reference 0); (str "a", A_null)])))) = (d', Ok v) /\ finite (d_heap d') v.
Proof.
  destruct (decode0 (fresh (bytes_reader (layout0 (A_object [(str "a", A_reference 0); (str "a", A_null)]))))) as [d' r] eqn:E. vm_compute in E. injection E as <- <-.
  eexists; eexists. split; [reflexivity|]. split; [reflexivity|]. exists (PObj [(str "a", PNil)]). eapply U_obj; [reflexivity| |apply Permutation.Permutation_refl]. repeat constructor.
Qed.
Print Assumptions C165_duplicates_refuted.

(** An object holding an object, twice a reference to it, and in a strict array an AMF3 string and an AMF3 reference to it. *)
Definition doc164 : doc0 := A_object [(str "a", A_object [(str "n", A_null)]); (str "b", A_reference 1); (str "c", A_strict [A_reference 1; A_avmplus [6; 5; 104; 105]; A_avmplus [6; 0]])].
Definition tree164 : pval := PObj [(str "a", PObj [(str "n", PNil)]); (str "b", PObj [(str "n", PNil)]); (str "c", PArr [PObj [(str "n", PNil)]; PStr [104; 105]; PStr [104; 105]])].
Lemma first_string : value3r Library new_world [6; 5; 104; 105] 0 (PStr [104; 105]) (mkWorld (mkTables [[104; 105]] []) []).
Proof. eapply (vr3_string Library new_world [5; 104; 105] [104; 105] [[104; 105]]). apply (vr_lit [] [104; 105] [5]); [discriminate|apply (u29_1 5); lia]. Qed.
Lemma same_string : value3r Library (mkWorld (mkTables [[104; 105]] []) []) [6; 0] 0 (PStr [104; 105]) (mkWorld (mkTables [[104; 105]] []) []).
Proof. eapply (vr3_string Library (mkWorld (mkTables [[104; 105]] []) []) [0] [104; 105] [[104; 105]]). apply (vr_ref _ 0); [apply (u29_1 0); lia|reflexivity]. Qed.
Example C164_example : exists W' env', begins_with new_world 0 true (layout0 doc164) doc164 0 W' [] /\ reads new_world [] doc164 0 tree164 W' env' /\ refers_up [] 0 doc164 = false /\ distinct_names doc164.
Proof.
  exists (mkWorld (mkTables [[104; 105]] []) []).
  assert (R : exists env', reads new_world [] doc164 0 tree164 (mkWorld (mkTables [[104; 105]] []) []) env').
  { eexists. eapply (rd_object _ _ _ [(str "a", PObj [(str "n", PNil)]); (str "b", PObj [(str "n", PNil)]); (str "c", PArr [PObj [(str "n", PNil)]; PStr [104; 105]; PStr [104; 105]])]); [|reflexivity]. cbn [app]. eapply rdf_cons; [eapply (rd_object _ _ _ [(str "n", PNil)]); [eapply rdf_cons; [apply rd_simple; exact I|apply rdf_nil]|reflexivity]|]. cbn.
    eapply rdf_cons; [apply rd_reference; reflexivity|]. eapply rdf_cons; [|apply rdf_nil]. eapply rd_strict. cbn [app].
    eapply (rde_cons new_world _ _ 0 _ new_world _ _ 0); [apply rd_reference; reflexivity| |left; reflexivity].
    eapply (rde_cons _ _ _ 0 _ _ _ _ 0); [apply rd_amf3, first_string| |left; reflexivity].
    eapply (rde_cons _ _ _ 0 _ _ _ _ 0); [apply rd_amf3, same_string| |left; reflexivity]. apply rde_nil. }
  destruct R as [env' R]. exists env'. split; [|split; [exact R|]; split; [reflexivity|]].
  - split; [reflexivity|]. split; [left; reflexivity|]. split; [cbv -[Z.le Z.lt]; repeat split; lia|]. split; [cbn; lia|]. split; [|right; right; reflexivity]. exact (proj1 reads_embedded _ _ _ _ _ _ _ R).
  - cbn. repeat split; repeat (constructor; [cbn; intros X; repeat (destruct X as [X|X]; [discriminate X|]); exact X|]); constructor.
Qed.
(** A map two levels up. *)
Definition doc165 : doc0 := A_strict [A_object [(str "a", A_ecma 1 [(str "b", A_reference 1)])]].
Example C165_example : begins_with new_world 0 true (layout0 doc165) doc165 0 new_world [] /\ distinct_names doc165 /\ refers_up [] 0 doc165 = true /\ exists d' v, decode0 (fresh (bytes_reader (layout0 doc165))) = (d', Ok v) /\ ~ finite (d_heap d') v.
Proof.
  assert (B : begins_with new_world 0 true (layout0 doc165) doc165 0 new_world []).
  { split; [reflexivity|]. split; [left; reflexivity|]. split; [cbv -[Z.le Z.lt]; repeat split; lia|]. split; [cbn; lia|]. split; [|right; right; reflexivity].
    cbn. repeat (exists 0%nat, new_world, 0%nat || split); auto. }
  assert (N : distinct_names doc165) by (cbn; repeat split; repeat (constructor; [cbn; intros X; repeat (destruct X as [X|X]; [discriminate X|]); exact X|]); constructor).
  split; [exact B|]. split; [exact N|]. split; [reflexivity|].
  destruct (C163_accepted_exactly new_world (fresh (bytes_reader (layout0 doc165))) (layout0 doc165) (eof true)) as [_ A]; [cbv -[Z.le Z.lt]; repeat constructor; unfold byte; lia|reflexivity|apply fresh_knows|].
  destruct (A _ _ _ _ B) as (d' & v & E & _). exists d', v. split; [exact E|]. intros F.
  apply (C165_finite_exactly new_world (fresh (bytes_reader (layout0 doc165))) (layout0 doc165) (eof true) doc165 0 new_world [] d' v) in F; [discriminate F|reflexivity|apply fresh_knows|constructor|exact B|exact N|exact E].
Qed.
