(** AMF0: the values of documents with references and embedded AMF3 values. *)
From Coq Require Import Permutation.
From Verif Require Import Base.Go Base.GoFacts Base.IO Base.Float64 Proofs.IOFacts Proofs.Float64 Model.AmfTypes Model.Amf3 Model.Amf0 Spec.Amf Spec.AmfDoc Spec.Amf3Doc Spec.Amf3Ref Spec.AmfAll Spec.AmfVal
  Proofs.AmfFacts Proofs.AmfContr Proofs.AmfKeep Proofs.Amf0Enc Proofs.Amf0RT Proofs.Amf0Doc Proofs.Amf0Acc Proofs.Amf0Panic Proofs.AmfTame Proofs.AmfHeap Proofs.Amf3Ref Proofs.AmfAll Proofs.Amf0Ref.
Local Ltac Zify.zify_post_hook ::= Z.div_mod_to_equations.

Scheme reads_ind2 := Induction for reads Sort Prop with fields_read_ind2 := Induction for fields_read Sort Prop with elems_read_ind2 := Induction for elems_read Sort Prop.
Combined Scheme reads_mutind from reads_ind2, fields_read_ind2, elems_read_ind2.

(** What is read runs through the embedded values. *)
Lemma reads_embedded : (forall W env t c p W' env', reads W env t c p W' env' -> embedded t W c W') /\
  (forall W env fs ps W' env', fields_read W env fs ps W' env' -> chain (femb fs) W 0 W') /\
  (forall W env l c ps W' env', elems_read W env l c ps W' env' -> chain (map embedded l) W c W').
Proof.
  apply reads_mutind; intros; cbn [embedded map chain snd].
  - destruct t; cbn [simple] in *; try tauto; split; reflexivity.
  - split; reflexivity.
  - exists p. assumption.
  - split; [reflexivity|assumption].
  - split; [reflexivity|assumption].
  - split; [reflexivity|assumption].
  - assumption.
  - split; reflexivity.
  - exists 0%nat, W1, 0%nat. repeat split; auto.
  - split; reflexivity.
  - exists c1, W1, c2. split; [assumption|]. split; [assumption|]. split; [reflexivity|]. destruct o as [o|o]; [left; exact o|right; rewrite o; reflexivity].
Qed.

Definition PV (W : world) (env : list (option pval)) (t : doc0) (c : nat) (p : pval) (W' : world) (env' : list (option pval)) : Prop := doc_ok true t ->
  forall opn fuel d s rest e, tab_ok opn (d_heap d) env (d_ref0 d) -> below opn (length (d_heap d)) -> relw W d ->
  (length (layout0 t) < fuel + c)%nat -> s ++ repeat 0 c = layout0 t ++ rest -> c = 0%nat \/ rest = [] -> d_r d = contr s e -> doc_end rest e t ->
  exists d' v new, dec0 fuel d = (d', Ok v) /\ d_r d' = contr rest e /\ d_heap d' = d_heap d ++ new /\
    good opn (d_heap d') v p /\ tab_ok opn (d_heap d') env' (d_ref0 d') /\ relw W' d'.
Definition PF (W : world) (env : list (option pval)) (fs : list (bytes * doc0)) (ps : list (bytes * pval)) (W' : world) (env' : list (option pval)) : Prop := Forall fok fs ->
  forall opn fuel k d rest e h m hs acc, tab_ok (length h :: opn) (d_heap d) env (d_ref0 d) -> below opn (length h) -> relw W d ->
  (length (layout_fields fs) < fuel)%nat -> (length fs < k)%nat -> d_r d = contr (layout_fields fs ++ [0; 0; 9] ++ rest) e ->
  d_heap d = h ++ m :: hs -> urel (length h :: opn) (d_heap d) m acc ->
  exists d' m' hs', obj_loop (dec0 fuel) k (length h) d = (d', Ok tt) /\ d_r d' = contr rest e /\ d_heap d' = h ++ m' :: hs ++ hs' /\
    tab_ok (length h :: opn) (d_heap d') env' (d_ref0 d') /\ urel (length h :: opn) (d_heap d') m' (putall acc ps) /\ relw W' d'.
Definition PE (W : world) (env : list (option pval)) (l : list doc0) (c : nat) (ps : list pval) (W' : world) (env' : list (option pval)) : Prop := Forall (doc_ok true) l ->
  forall opn fuel k d s rest e, tab_ok opn (d_heap d) env (d_ref0 d) -> below opn (length (d_heap d)) -> relw W d ->
  (length (concat (map layout0 l)) < fuel + c)%nat -> (length l <= k)%nat -> s ++ repeat 0 c = concat (map layout0 l) ++ rest -> c = 0%nat \/ rest = [] -> d_r d = contr s e -> doc_end rest e (A_strict l) ->
  exists d' vs new, loop_n (dec0 fuel) k (len l) d = (d', Ok vs) /\ d_r d' = contr rest e /\ d_heap d' = d_heap d ++ new /\
    Forall2 (good opn (d_heap d')) vs ps /\ tab_ok opn (d_heap d') env' (d_ref0 d') /\ relw W' d'.

Lemma object_val W env fs ps W' env' : PF W (env ++ [None]) fs ps W' env' -> Forall fok fs ->
  forall opn fuel k d rest e, tab_ok opn (d_heap d) env (d_ref0 d) -> below opn (length (d_heap d)) -> relw W d ->
  (length (layout_fields fs) < fuel)%nat -> (length fs < k)%nat -> d_r d = contr (layout_fields fs ++ [0; 0; 9] ++ rest) e ->
  exists d' m hs, decode_object0 (dec0 fuel) k d = (d', Ok (length (d_heap d))) /\ d_r d' = contr rest e /\ d_heap d' = d_heap d ++ m :: hs /\
    (forall H, agree_but opn (d_heap d') H -> nth_error H (length (d_heap d)) = Some m /\ frel H m (members ps)) /\
    tab_ok opn (d_heap d') (complete (length env) (PObj (members ps)) env') (d_ref0 d') /\ relw W' d'.
Proof.
  intros HP Hok opn fuel k d rest e HT HO HW Hf Hk Hr.
  unfold decode_object0. erewrite dbind_ok by reflexivity. erewrite dbind_ok by reflexivity. set (d1 := set_ref0 _ _).
  assert (HT1 : tab_ok (length (d_heap d) :: opn) (d_heap d1) (env ++ [None]) (d_ref0 d1)) by (apply tab_snoc; [apply tab_open, HT|exact I]).
  destruct (HP Hok opn fuel k d1 rest e (d_heap d) [] [] [] HT1 HO HW Hf Hk Hr eq_refl ltac:(constructor)) as (d2 & m & hs & D & R & Hh & T & U & HW').
  assert (G : forall H, agree_but opn (d_heap d2) H -> nth_error H (length (d_heap d)) = Some m /\ frel H m (members ps)).
  { intros H HA. split.
    - rewrite HA; [rewrite Hh; apply nth_error_len|rewrite Hh, app_length; cbn [length]; lia|]. intros X. specialize (HO _ X). lia.
    - assert (HA' : agree_but (length (d_heap d) :: opn) (d_heap d2) H) by (intros i Hi Ho; apply HA; [exact Hi|intros X; apply Ho; right; exact X]).
      unfold members. change (fold_left (fun acc p => put (fst p) (snd p) acc) ps []) with (putall [] ps). clear - U HA'. induction U as [|a b m ps' [H1 H2] U IH]; constructor; [split; [exact H1|apply H2, HA']|exact IH]. }
  exists d2, m, hs. split; [erewrite dbind_ok by exact D; reflexivity|]. split; [exact R|]. split; [exact Hh|]. split; [exact G|]. split; [|exact HW'].
  apply (tab_complete _ _ _ _ (VObj (length (d_heap d)))); [apply (tab_close _ _ _ _ _ T)| |].
  - pose proof (tame_obj_loop (dec0 fuel) (tame_dec0 fuel) (length (d_heap d)) k d1) as [(HX & _) _]. rewrite D in HX. cbn [fst] in HX. eapply extends_nth; [exact HX|].
    unfold d1. cbn [set_ref0 d_ref0]. rewrite (tab_len _ _ _ _ HT). apply nth_error_len.
  - intros H HA. destruct (G H HA) as [G1 G2]. econstructor; [exact G1|exact G2|apply Permutation_refl].
Qed.
Lemma leaf_val (m : Dm value) d d' v p opn env rest e W : m d = (d', Ok v) -> d_r d' = contr rest e -> d_heap d' = d_heap d -> d_ref0 d' = d_ref0 d -> T3 d' = T3 d ->
  (forall H, unfolds H v p) -> tab_ok opn (d_heap d) env (d_ref0 d) -> relw W d ->
  exists d' v new, m d = (d', Ok v) /\ d_r d' = contr rest e /\ d_heap d' = d_heap d ++ new /\ good opn (d_heap d') v p /\ tab_ok opn (d_heap d') env (d_ref0 d') /\ relw W d'.
Proof. intros E R H1 H2 H3 U T HW. exists d', v, []. rewrite app_nil_r, H1, H2. split; [exact E|]. split; [exact R|]. split; [reflexivity|]. split; [intros H _; apply U|]. split; [exact T|]. apply (relw_T3 _ d); assumption. Qed.
Tactic Notation "leafs" tactic3(t) := (eapply leaf_val; [t|reflexivity|reflexivity|reflexivity|reflexivity|constructor|eassumption|eassumption]).
Theorem dec0_val : (forall W env t c p W' env', reads W env t c p W' env' -> PV W env t c p W' env') /\
  (forall W env fs ps W' env', fields_read W env fs ps W' env' -> PF W env fs ps W' env') /\
  (forall W env l c ps W' env', elems_read W env l c ps W' env' -> PE W env l c ps W' env').
Proof.
  apply reads_mutind.
  - (* simple *)
    intros W env t HS Hok opn [|fuel] d x rest e HT HO HW Hf ES EC Hr Hs; [lia|]. apply cut_none in ES. subst x. clear EC. rewrite Nat.add_0_r in Hf.
    destruct t as [b|b|s| | | | | | |b z|s| |s| |]; try (destruct HS; fail); cbn [doc_ok layout0 read0 meaning0] in *;
      change (2 ^ 64) with 18446744073709551616 in *; change (2 ^ 32) with 4294967296 in *; change (2 ^ 16) with 65536 in *.
    + leafs (apply dec0_number; [exact Hok|exact Hr]).
    + leafs (step0 Hr; erewrite dbind_ok by (eapply read_byte_contr; reflexivity); reflexivity).
    + assert (Hs' : s <> [] \/ rest <> [] \/ e_zero e = false) by (destruct s; [|left; discriminate]; destruct Hs as [H|[H|H]]; [tauto|tauto|cbn in H; discriminate]).
      leafs (step0 Hr; erewrite dbind_ok by (eapply decode_string0_contr; [reflexivity|lia|exact Hs']); reflexivity).
    + leafs (step0 Hr; reflexivity).
    + leafs (step0 Hr; reflexivity).
    + destruct Hok as [Hb Hz]. cbn [app] in Hr. rewrite <- app_assoc in Hr. leafs (step0 Hr; unfold decode_date0;
      erewrite dbind_ok by (change 8 with (len (be64 b)); eapply read_be_contr; [reflexivity|reflexivity]);
      erewrite dbind_ok by (change 2 with (len (be16 z)); eapply read_bytes_contr; [reflexivity|reflexivity]); rewrite be_val_be64, Z.mod_small by exact Hb; reflexivity).
    + assert (Hs' : s <> [] \/ rest <> [] \/ e_zero e = false) by (destruct s; [|left; discriminate]; destruct Hs as [H|[H|H]]; [tauto|tauto|cbn in H; discriminate]).
      leafs (step0 Hr; erewrite dbind_ok by (eapply decode_longstring0_contr; [reflexivity|lia|exact Hs']); reflexivity).
    + leafs (step0 Hr; reflexivity).
    + assert (Hs' : s <> [] \/ rest <> [] \/ e_zero e = false) by (destruct s; [|left; discriminate]; destruct Hs as [H|[H|H]]; [tauto|tauto|cbn in H; discriminate]).
      leafs (step0 Hr; erewrite dbind_ok by (eapply decode_longstring0_contr; [reflexivity|lia|exact Hs']); reflexivity).
  - (* reference *)
    intros W env i p En Hok opn [|fuel] d x rest e HT HO HW Hf ES EC Hr Hs; [lia|]. apply cut_none in ES. subst x. cbn [doc_ok layout0] in *. change (2 ^ 16) with 65536 in *. destruct Hok as [_ Hi]. cbn [app] in Hr.
    assert (HX : exists v, nth_error (d_ref0 d) (Z.to_nat i) = Some v /\ good opn (d_heap d) v p).
    { clear - HT En. unfold tab_ok in HT. revert En. generalize (Z.to_nat i). induction HT as [|o v env' tab HE HT IH]; intros [|n] En; cbn [nth_error] in *; try discriminate; [|apply IH, En].
      inversion En; subst. exists v. split; [reflexivity|exact HE]. }
    destruct HX as (v & Hv & G). assert (Hl : (Z.to_nat i < length (d_ref0 d))%nat) by (apply nth_error_Some; congruence).
    exists (set_r (contr rest e) d), v, []. rewrite app_nil_r. split; [|split; [reflexivity|split; [reflexivity|split; [exact G|split; [exact HT|exact HW]]]]].
    step0 Hr. unfold decode_reference0. erewrite dbind_ok by (change 2 with (len (be16 i)); eapply read_be_contr; [reflexivity|reflexivity]). rewrite be_val_be16, Z.mod_small by lia. cbn [d_ref0 set_r].
    unfold len. destruct (Z.ltb_spec (Z.of_nat (length (d_ref0 d))) i); [lia|]. destruct (Z.eqb_spec i (Z.of_nat (length (d_ref0 d)))); [lia|]. erewrite nth_error_nth by exact Hv. reflexivity.
  - (* AMF3 *)
    intros W env s c p W' HV Hok opn [|fuel] d x rest e HT HO HW Hf ES EC Hr Hs; pose proof (proj1 (cut_lengths Library) _ _ _ _ _ HV) as Lc; cbn [layout0 length] in *; [lia|].
    destruct x as [|x0 x]; [apply (f_equal (@length Z)) in ES; rewrite !app_length, repeat_length in ES; cbn [length] in ES; lia|]. cbn [app] in ES. injection ES as -> ES.
    destruct (proj1 (dec3_ref Library) W s c p W' HV eq_refl fuel (set_r (contr x e) d) x rest e) as (d' & v & hs & H1 & H2 & H3 & H4 & H5); [lia|exact ES|exact EC|reflexivity|exact HW|]. cbn [set_r d_heap] in H3, H4.
    exists d', v, hs. split; [|split; [exact H2|split; [exact H3|split; [|split; [|exact H5]]]]].
    + cbn [dec0]. erewrite dbind_ok by (eapply read_byte_contr; exact Hr). exact H1.
    + intros H HA. apply H4. intros i Hi. apply HA; [lia|]. intros X. specialize (HO _ X). lia.
    + rewrite (kr_ok _ _ _ _ (kr_dec3 fuel) H1), H3. cbn [set_r d_ref0]. apply tab_more, HT.
  - (* object *)
    intros W env fs ps W' env' p HF IH -> Hok opn [|fuel] d x rest e HT HO HW Hf ES EC Hr Hs; [lia|]. apply cut_none in ES. subst x. cbn [doc_ok layout0] in *. apply all_of_map in Hok.
    cbn [length app] in Hf, Hr. rewrite app_length in Hf. fold (layout_fields fs) in Hf, Hr. rewrite <- app_assoc in Hr. cbn [length] in Hf. pose proof (layout_fields_length fs) as Hwl.
    destruct (object_val _ _ _ _ _ _ IH Hok opn fuel fuel (set_r (contr (layout_fields fs ++ [0; 0; 9] ++ rest) e) d) rest e HT HO HW) as (d' & m & hs & E & R & Hh & G & T & HW'); [lia|lia|reflexivity|].
    exists d', (VObj (length (d_heap d))), (m :: hs). split; [step0 Hr; erewrite dbind_ok by exact E; reflexivity|]. split; [exact R|]. split; [exact Hh|]. split; [|split; [exact T|exact HW']].
    intros H HA. destruct (G H HA) as [G1 G2]. econstructor; [exact G1|exact G2|apply Permutation_refl].
  - (* ECMA array *)
    intros W env n fs ps W' env' p HF IH -> Hok opn [|fuel] d x rest e HT HO HW Hf ES EC Hr Hs; [lia|]. apply cut_none in ES. subst x. cbn [doc_ok layout0] in *. destruct Hok as [Hn Hok]. apply all_of_map in Hok.
    cbn [length app] in Hf, Hr. rewrite !app_length in Hf. fold (layout_fields fs) in Hf, Hr. rewrite <- !app_assoc in Hr. cbn [length be32] in Hf. pose proof (layout_fields_length fs) as Hwl.
    destruct (object_val _ _ _ _ _ _ IH Hok opn fuel fuel (set_r (contr (layout_fields fs ++ [0; 0; 9] ++ rest) e) d) rest e HT HO HW) as (d' & m & hs & E & R & Hh & G & T & HW'); [lia|lia|reflexivity|].
    exists d', (VObj (length (d_heap d))), (m :: hs). split.
    { step0 Hr. unfold decode_ecma0. erewrite dbind_ok by (change 4 with (len (be32 n)); eapply read_be_contr; [reflexivity|reflexivity]).
      rewrite ?set_r_set_r. erewrite dbind_ok by exact E. reflexivity. }
    split; [exact R|]. split; [exact Hh|]. split; [|split; [exact T|exact HW']]. intros H HA. destruct (G H HA) as [G1 G2]. econstructor; [exact G1|exact G2|apply Permutation_refl].
  - (* typed object *)
    intros W env ty fs ps W' env' HF IH Hok opn [|fuel] d x rest e HT HO HW Hf ES EC Hr Hs; [lia|]. apply cut_none in ES. subst x. cbn [doc_ok layout0] in *. destruct Hok as [Htl Hok]. apply all_of_map in Hok.
    cbn [length app] in Hf, Hr. rewrite !app_length in Hf. fold (layout_fields fs) in Hf, Hr. rewrite <- !app_assoc in Hr. cbn [length] in Hf. pose proof (layout_fields_length fs) as Hwl.
    set (d1 := set_r (contr (layout_fields fs ++ [0; 0; 9] ++ rest) e)
                 (set_ref0 (d_ref0 d ++ [VTyped [] None])
                    (set_r (contr (wire_utf8 ty ++ layout_fields fs ++ [0; 0; 9] ++ rest) e) d))).
    assert (HT1 : tab_ok opn (d_heap d1) (env ++ [Some (PTyped [] [])]) (d_ref0 d1)) by (apply tab_snoc; [exact HT|intros H _; constructor]).
    change (env ++ [Some (PTyped [] []); None]) with (env ++ [Some (PTyped [] [])] ++ [None]) in IH. rewrite app_assoc in IH.
    destruct (object_val _ _ _ _ _ _ IH Hok opn fuel fuel d1 rest e HT1 HO HW) as (d' & m & hs & E & R & Hh & G & T & HW'); [lia|lia|reflexivity|].
    rewrite app_length in T. cbn [length] in T. rewrite Nat.add_1_r in T.
    exists d', (VTyped ty (Some (length (d_heap d)))), (m :: hs). split.
    { step0 Hr. unfold decode_typed0. erewrite dbind_ok by reflexivity.
      erewrite dbind_ok by (eapply decode_string0_contr; [reflexivity|exact Htl|right; left; intros X; apply app_eq_nil in X; destruct X; discriminate]).
      erewrite dbind_ok by exact E. reflexivity. }
    split; [exact R|]. split; [exact Hh|]. split; [|split; [exact T|exact HW']]. intros H HA. destruct (G H HA) as [G1 G2]. econstructor; [exact G1|exact G2|apply Permutation_refl].
  - (* strict array *)
    intros W env l c ps W' env' HE IH Hok opn fuel d x rest e HT HO HW Hf ES EC Hr Hs. pose proof (proj2 (proj2 reads_embedded) _ _ _ _ _ _ _ HE) as HM. pose proof (elems_lengths _ _ _ _ HM) as Hcl.
    destruct fuel as [|fuel]; [exfalso; cbn [layout0 length] in Hf; rewrite app_length in Hf; lia|]. cbn [doc_ok layout0] in *. destruct Hok as [Hlen Hall]. apply all_of_map in Hall. change (2 ^ 32) with 4294967296 in *.
    cbn [length app] in Hf, ES. rewrite app_length in Hf. cbn [be32 length] in Hf. rewrite <- app_assoc in ES.
    assert (EX : exists x', x = 10 :: be32 (len l) ++ x' /\ x' ++ repeat 0 c = concat (map layout0 l) ++ rest).
    { destruct (cut_split x 0 c (10 :: be32 (len l)) (concat (map layout0 l)) rest) as (s2 & A & _ & B & _); [exact ES|exact EC|lia|left; reflexivity|]. exists s2. apply cut_none in A. split; [exact A|exact B]. }
    destruct EX as (x' & -> & ES'). cbn [app] in Hr.
    set (d1 := set_ref0 (d_ref0 d ++ [VArr []]) (set_r (contr x' e) d)).
    assert (HT1 : tab_ok opn (d_heap d1) (env ++ [Some (PArr [])]) (d_ref0 d1)) by (apply tab_snoc; [exact HT|intros H _; repeat constructor]).
    destruct (IH Hall opn fuel fuel d1 x' rest e HT1 HO HW) as (d' & vs & new & E & R & Hh & G & T & HW'); [lia|lia|exact ES'|exact EC|reflexivity|exact Hs|].
    exists d', (VArr vs), new. split.
    { step0 Hr. unfold decode_strict0. erewrite dbind_ok by (change 4 with (len (be32 (len l))); eapply read_be_contr; [reflexivity|reflexivity]).
      rewrite be_val_be32, Z.mod_small by (pose proof (len_nonneg l); lia). erewrite dbind_ok by reflexivity. erewrite dbind_ok by exact E. reflexivity. }
    split; [exact R|]. split; [exact Hh|]. split; [|split; [exact T|exact HW']]. intros H HA. constructor. clear - G HA. induction G as [|a b vs ps G1 G IHG]; constructor; [apply G1, HA|exact IHG].
  - (* no fields *)
    intros W env Hok opn fuel k d rest e h m hs acc HT HO HW Hf Hk Hr Hh HR. exists (set_r (contr rest e) d), m, []. rewrite app_nil_r. cbn [set_r d_r d_heap d_ref0 putall fold_left].
    split; [apply obj_loop_end; [cbn [length] in Hk; lia|exact Hr]|]. split; [reflexivity|]. split; [exact Hh|]. split; [exact HT|]. split; [exact HR|exact HW].
  - (* fields *)
    intros W env key t p W1 env1 fs ps W2 env2 HV IHV HF IHF Hok opn fuel k d rest e h m hs acc HT HO HW Hf Hk Hr Hh HR. inversion Hok as [|? ? [Hkl Hot] Hol]; subst. cbn [fst snd] in *.
    destruct k as [|k]; [cbn [length] in Hk; lia|].
    unfold layout_fields in Hf, Hr. cbn [map concat fst snd] in Hf, Hr. fold (layout_fields fs) in Hf, Hr. rewrite <- !app_assoc in Hr. rewrite !app_length in Hf.
    assert (Hkne : key <> []) by (intros ->; unfold len in Hkl; cbn [length] in Hkl; lia).
    set (d0 := set_r (contr (layout0 t ++ layout_fields fs ++ [0; 0; 9] ++ rest) e) d).
    assert (Es : decode_string0 d = (d0, Ok key)) by (unfold d0; apply decode_string0_contr; [exact Hr|lia|left; exact Hkne]).
    assert (HB0 : below (length h :: opn) (length (d_heap d0))).
    { intros i Hi. change (d_heap d0) with (d_heap d). rewrite Hh, app_length. cbn [length]. destruct Hi as [<-|Hi]; [lia|]. specialize (HO i Hi). lia. }
    destruct (IHV Hot (length h :: opn) fuel d0 (layout0 t ++ layout_fields fs ++ [0; 0; 9] ++ rest) (layout_fields fs ++ [0; 0; 9] ++ rest) e HT HB0 HW ltac:(lia) (app_nil_r _) ltac:(left; reflexivity) eq_refl) as (d1 & v & new & D1 & R1 & H1 & G1 & T1 & HW1).
    { left. intros X. apply app_eq_nil in X. destruct X; discriminate. }
    change (d_heap d0) with (d_heap d) in H1.
    set (d2 := set_heap (upd_nth (length h) (map_set key v) (d_heap d1)) d1).
    assert (Hd2 : d_heap d2 = h ++ (map_set key v m) :: (hs ++ new)) by (unfold d2; cbn [d_heap set_heap]; rewrite H1, Hh, <- app_assoc, <- app_comm_cons, upd_nth_app; reflexivity).
    destruct (IHF Hol opn fuel k d2 rest e h (map_set key v m) (hs ++ new) (put key p acc)) as (d3 & m' & hs' & D3 & R3 & H3 & T3' & U3 & HW3).
    + unfold d2. cbn [d_heap set_heap d_ref0]. apply tab_upd, T1.
    + exact HO.
    + exact HW1.
    + lia.
    + cbn [length] in Hk. lia.
    + exact R1.
    + exact Hd2.
    + apply urel_set; unfold d2; cbn [d_heap set_heap]; [apply good_upd, G1|]. eapply urel_imp; [|exact HR]. intros w q Hw. apply good_upd. rewrite H1. apply good_more, Hw.
    + exists d3, m', (new ++ hs'). split; [|split; [exact R3|split; [rewrite H3, <- app_assoc; reflexivity|split; [exact T3'|split; [exact U3|exact HW3]]]]].
      cbn [obj_loop]. erewrite dbind_ok by exact Es. destruct key as [|c key]; [congruence|]. erewrite dbind_ok by exact D1. erewrite dbind_ok by reflexivity. exact D3.
  - (* no elements *)
    intros W env Hok opn fuel k d s rest e HT HO HW Hf Hk ES EC Hr Hs. apply cut_none in ES. cbn [map concat app] in ES. subst s. exists d, [], []. rewrite app_nil_r. split; [destruct k; reflexivity|]. split; [exact Hr|]. split; [reflexivity|]. split; [constructor|]. split; [exact HT|exact HW].
  - (* elements *)
    intros W env t c1 p W1 env1 l c2 ps W2 env2 HV IHV HE IHE EM Hok opn fuel k d s rest e HT HO HW Hf Hk ES EC Hr Hs. inversion Hok as [|? ? Hot Hol]; subst.
    destruct k as [|k]; [cbn [length] in Hk; lia|]. cbn [map concat] in Hf, ES. rewrite app_length in Hf. rewrite <- app_assoc in ES.
    pose proof (elems_lengths _ _ _ _ (proj2 (proj2 reads_embedded) _ _ _ _ _ _ _ HE)) as L2. pose proof (embedded_lengths _ _ _ _ (proj1 reads_embedded _ _ _ _ _ _ _ HV)) as L1.
    assert (EM' : c1 = 0%nat \/ concat (map layout0 l) = []) by (destruct EM as [EM|EM]; [left; exact EM|right; subst l; reflexivity]).
    destruct (cut_split s c1 c2 (layout0 t) (concat (map layout0 l)) rest ES ltac:(lia || tauto) ltac:(lia) EM') as (s2 & ES1 & EC1 & ES2 & EC2).
    destruct (IHV Hot opn fuel d s s2 e HT HO HW) as (d1 & v & new & D1 & R1 & H1 & G1 & T1 & HW1); [destruct EM' as [-> |EM']; [lia|rewrite EM' in *; cbn [length] in *; lia]|exact ES1|exact EC1|exact Hr| |].
    { destruct Hs as [Hs|[Hs|Hs]].
      - left. intros ->. destruct EC as [EC|EC]; [|congruence]. assert (c2 = 0%nat) by lia. subst c2. apply cut_none in ES2. symmetry in ES2. apply app_eq_nil in ES2. tauto.
      - right; left; exact Hs.
      - destruct l as [|t2 l]; [right; right; exact Hs|]. left. intros ->. apply (f_equal (@length Z)) in ES2. rewrite !app_length, repeat_length in ES2. cbn [length] in L2, ES2. lia. }
    destruct (IHE Hol opn fuel k d1 s2 rest e T1) as (d2 & vs & new2 & D2 & R2 & H2 & G2 & T2 & HW2); [|exact HW1| |cbn [length] in Hk; lia|exact ES2|exact EC2|exact R1| |].
    { intros i Hi. rewrite H1, app_length. specialize (HO i Hi). lia. }
    { destruct EM' as [-> |EM']; [lia|rewrite EM' in *; cbn [length] in *; lia]. }
    { destruct Hs as [Hs|[Hs|Hs]]; [left; exact Hs|right; left; exact Hs|]. destruct l as [|t2 l]; [right; right; reflexivity|].
      right; right. destruct (exists_last (l := t2 :: l) ltac:(discriminate)) as (l' & x & El). rewrite El in *. rewrite doc_ends_last. change (t :: l' ++ [x]) with ((t :: l') ++ [x]) in Hs. rewrite doc_ends_last in Hs. exact Hs. }
    exists d2, (v :: vs), (new ++ new2). split; [|split; [exact R2|split; [rewrite H2, H1, app_assoc; reflexivity|split; [constructor; [rewrite H2; apply good_more, G1|exact G2]|split; [exact T2|exact HW2]]]]].
    cbn [loop_n]. destruct (Z.leb_spec (len (t :: l)) 0); [rewrite len_cons in *; pose proof (len_nonneg l); lia|]. erewrite dbind_ok by exact D1.
    replace (len (t :: l) - 1) with (len l) by (rewrite len_cons; lia). erewrite dbind_ok by exact D2. reflexivity.
Qed.

(** * Every document without a reference to an enclosing map is read *)
Fixpoint ufields (up : list Z) (n : Z) (fs : list (bytes * doc0)) : bool := match fs with [] => false | (_, x) :: fs' => refers_up up n x || ufields up (n + slots x) fs' end.
Fixpoint uelems (up : list Z) (n : Z) (l : list doc0) : bool := match l with [] => false | x :: l' => refers_up up n x || uelems up (n + slots x) l' end.
Lemma up_object up n fs : refers_up up n (A_object fs) = ufields (n :: up) (n + 1) fs. Proof. reflexivity. Qed.
Lemma up_ecma up n k fs : refers_up up n (A_ecma k fs) = ufields (n :: up) (n + 1) fs. Proof. reflexivity. Qed.
Lemma up_typed up n ty fs : refers_up up n (A_typed ty fs) = ufields (n + 1 :: up) (n + 2) fs. Proof. reflexivity. Qed.
Lemma up_strict up n l : refers_up up n (A_strict l) = uelems up (n + 1) l. Proof. reflexivity. Qed.

(** The places without a value are those in up. *)
Definition gaps (env : list (option pval)) (up : list Z) : Prop := forall i, nth_error env i = Some None -> In (Z.of_nat i) up.
Definition RD (t : doc0) : Prop := forall W c W' env up, embedded t W c W' -> doc_ok true t -> refs_in (len env) t -> refers_up up (len env) t = false -> gaps env up -> (forall i, In i up -> 0 <= i < len env) ->
  exists p env', reads W env t c p W' env' /\ len env' = len env + slots t /\ gaps env' up.
Lemma gaps_none env up : gaps env up -> gaps (env ++ [None]) (len env :: up).
Proof.
  intros G i E. destruct (Nat.lt_ge_cases i (length env)) as [L|L]; [rewrite nth_error_app1 in E by exact L; right; apply G, E|].
  left. assert (i < length (env ++ [@None pval]))%nat by (apply nth_error_Some; congruence). rewrite app_length in *. cbn [length] in *. unfold len. lia.
Qed.
Lemma gaps_some env up p : gaps env up -> gaps (env ++ [Some p]) up.
Proof.
  intros G i E. destruct (Nat.lt_ge_cases i (length env)) as [L|L]; [rewrite nth_error_app1 in E by exact L; apply G, E|].
  rewrite nth_error_app2 in E by exact L. destruct (i - length env)%nat as [|j]; [discriminate E|destruct j; discriminate E].
Qed.
Lemma complete_len n p env : (n < length env)%nat -> length (complete n p env) = length env.
Proof. intros L. unfold complete. rewrite app_length. cbn [length]. rewrite firstn_length, skipn_length. lia. Qed.
Lemma gaps_complete env up n p : (n < length env)%nat -> gaps env (Z.of_nat n :: up) -> gaps (complete n p env) up.
Proof.
  intros L G i E. unfold complete in E. destruct (Nat.lt_trichotomy i n) as [H|[H|H]].
  - rewrite nth_error_app1 in E by (rewrite firstn_length; lia). rewrite <- (firstn_skipn n env) in G. specialize (G i). rewrite nth_error_app1 in G by (rewrite firstn_length; lia). destruct (G E) as [X|X]; [lia|exact X].
  - subst i. rewrite nth_error_app2 in E by (rewrite firstn_length; lia). rewrite firstn_length, Nat.min_l, Nat.sub_diag in E by lia. discriminate E.
  - rewrite nth_error_app2 in E by (rewrite firstn_length; lia). rewrite firstn_length, Nat.min_l in E by lia. destruct (i - n)%nat as [|j] eqn:Ej; [lia|]. cbn [nth_error] in E.
    specialize (G i). rewrite <- (firstn_skipn (S n) env) in G. rewrite nth_error_app2 in G by (rewrite firstn_length; lia). rewrite firstn_length, Nat.min_l in G by lia. replace (i - S n)%nat with j in G by lia. destruct (G E) as [X|X]; [lia|exact X].
Qed.
Lemma slots_nonneg t : 0 <= slots t.
Proof.
  assert (P : forall (l : list Z), Forall (fun z => 0 <= z) l -> 0 <= fold_right Z.add 0 l) by (intros l H; induction H; cbn [fold_right]; lia).
  induction t as [b|b|s|fs IH| | |i|s|n fs IH|l IH|b z|s| |s|ty fs IH] using doc0_ind'; cbn [slots]; try lia; match goal with |- context [fold_right Z.add 0 (map ?f ?l)] => assert (0 <= fold_right Z.add 0 (map f l)); [apply P, Forall_map, IH|lia] end.
Qed.
Lemma fields_read_all fs : Forall (fun p => RD (snd p)) fs -> forall W W' env up, chain (femb fs) W 0 W' -> Forall fok fs -> frefs (len env) fs -> ufields up (len env) fs = false -> gaps env up -> (forall i, In i up -> 0 <= i < len env) ->
  exists ps env', fields_read W env fs ps W' env' /\ len env' = len env + fslots fs /\ gaps env' up.
Proof.
  induction fs as [|[k t] fs IH]; intros HR W W' env up HM Hok HF HU G HI.
  - destruct HM as [_ ->]. exists [], env. split; [constructor|]. cbn [map fold_right]. split; [lia|exact G].
  - inversion HR as [|? ? HR1 HR2]; inversion Hok as [|? ? [_ Ho1] Ho2]; subst. cbn [snd map chain] in *. destruct HM as (c1 & W1 & c2 & M1 & M2 & EC & _). assert (c1 = 0%nat /\ c2 = 0%nat) as [-> ->] by lia. destruct HF as [F1 F2]. cbn [ufields] in HU. apply orb_false_iff in HU. destruct HU as [U1 U2].
    destruct (HR1 W 0%nat W1 env up M1 Ho1 F1 U1 G HI) as (p & env1 & R1 & L1 & G1). rewrite <- L1 in F2, U2.
    destruct (IH HR2 W1 W' env1 up M2 Ho2 F2 U2 G1) as (ps & env2 & R2 & L2 & G2); [intros i Hi; specialize (HI i Hi); pose proof (slots_nonneg t); lia|].
    exists ((k, p) :: ps), env2. split; [econstructor; eassumption|]. cbn [fold_right]. split; [lia|exact G2].
Qed.
Lemma elems_read_all l : Forall RD l -> forall W c W' env up, chain (map embedded l) W c W' -> Forall (doc_ok true) l -> erefs (len env) l -> uelems up (len env) l = false -> gaps env up -> (forall i, In i up -> 0 <= i < len env) ->
  exists ps env', elems_read W env l c ps W' env' /\ len env' = len env + eslots l /\ gaps env' up.
Proof.
  induction l as [|t l IH]; intros HR W c W' env up HM Hok HF HU G HI.
  - destruct HM as [-> ->]. exists [], env. split; [constructor|]. cbn [map fold_right]. split; [lia|exact G].
  - inversion HR as [|? ? HR1 HR2]; inversion Hok as [|? ? Ho1 Ho2]; subst. cbn [map chain] in *. destruct HM as (c1 & W1 & c2 & M1 & M2 & -> & EM). destruct HF as [F1 F2]. cbn [uelems] in HU. apply orb_false_iff in HU. destruct HU as [U1 U2].
    destruct (HR1 W c1 W1 env up M1 Ho1 F1 U1 G HI) as (p & env1 & R1 & L1 & G1). rewrite <- L1 in F2, U2.
    destruct (IH HR2 W1 c2 W' env1 up M2 Ho2 F2 U2 G1) as (ps & env2 & R2 & L2 & G2); [intros i Hi; specialize (HI i Hi); pose proof (slots_nonneg t); lia|].
    exists (p :: ps), env2. split; [econstructor; [eassumption|eassumption|destruct EM as [EM|EM]; [left; exact EM|right; destruct l; [reflexivity|discriminate EM]]]|]. cbn [fold_right]. split; [lia|exact G2].
Qed.
Lemma fslots_nonneg (fs : list (bytes * doc0)) : 0 <= fslots fs.
Proof. pose proof (slots_nonneg (A_object fs)) as H. induction fs as [|p fs IH]; cbn [map fold_right]; [lia|]. pose proof (slots_nonneg (snd p)). specialize (IH (slots_nonneg _)). lia. Qed.
Theorem read_all t : RD t.
Proof.
  assert (OBJ : forall fs W W' env up n, Forall (fun p => RD (snd p)) fs -> chain (femb fs) W 0 W' -> Forall fok fs -> len env = n -> frefs (n + 1) fs -> ufields (n :: up) (n + 1) fs = false -> gaps env up -> (forall i, In i up -> 0 <= i < n) ->
    exists ps env', fields_read W (env ++ [None]) fs ps W' env' /\ len env' = n + 1 + fslots fs /\ gaps (complete (length env) (PObj (members ps)) env') up /\ len (complete (length env) (PObj (members ps)) env') = n + 1 + fslots fs).
  { intros fs W W' env up n IH HM Hok <- HF HU G HI. assert (L : len (env ++ [@None pval]) = len env + 1) by (rewrite len_app; reflexivity). pose proof (len_nonneg env) as Hn.
    destruct (fields_read_all fs IH W W' (env ++ [None]) (len env :: up) HM Hok) as (ps & env' & R & L' & G'); [rewrite L; exact HF|rewrite L; exact HU|apply gaps_none, G|intros i [<-|Hi]; [lia|specialize (HI i Hi); lia]|].
    pose proof (fslots_nonneg fs) as Hp. exists ps, env'. split; [exact R|]. split; [lia|]. assert (LL : (length env < length env')%nat) by (unfold len in *; lia).
    split; [apply gaps_complete; [exact LL|exact G']|]. unfold len in *. rewrite complete_len by exact LL. lia. }
  induction t as [b|b|s|fs IH| | |i|s|n fs IH|l IH|b z|s| |s|ty fs IH] using doc0_ind'; intros W c W' env up HM Hok HF HU G HI;
    try (destruct HM as [-> ->]; do 2 eexists; split; [apply rd_simple; exact I|split; [cbn [slots]; lia|exact G]]); cbn [embedded doc_ok] in HM, Hok.
  - destruct HM as [-> HM]. apply all_of_map in Hok. rewrite up_object in HU.
    destruct (OBJ fs W W' env up (len env) IH HM Hok eq_refl HF HU G HI) as (ps & env' & R & L & G' & L'). do 2 eexists. split; [eapply rd_object; [exact R|reflexivity]|]. split; [rewrite L'; cbn [slots]; lia|exact G'].
  - destruct HM as [-> ->]. cbn [refs_in refers_up] in HF, HU. destruct (nth_error env (Z.to_nat i)) as [[p|]|] eqn:E.
    + exists p, env. split; [apply rd_reference, E|]. split; [cbn [slots]; lia|exact G].
    + exfalso. apply G in E. destruct Hok as [_ Hi]. assert (X : existsb (Z.eqb i) up = true) by (apply existsb_exists; exists (Z.of_nat (Z.to_nat i)); split; [exact E|apply Z.eqb_eq; lia]). congruence.
    + exfalso. apply nth_error_None in E. unfold len in HF. destruct Hok as [_ Hi]. lia.
  - destruct HM as (p & HV). exists p, env. split; [apply rd_amf3, HV|]. split; [cbn [slots]; lia|exact G].
  - destruct HM as [-> HM]. destruct Hok as [_ Hok]. apply all_of_map in Hok. rewrite up_ecma in HU.
    destruct (OBJ fs W W' env up (len env) IH HM Hok eq_refl HF HU G HI) as (ps & env' & R & L & G' & L'). do 2 eexists. split; [eapply rd_ecma; [exact R|reflexivity]|]. split; [rewrite L'; cbn [slots]; lia|exact G'].
  - destruct Hok as [_ Hok]. apply all_of_map in Hok. rewrite up_strict in HU. assert (L : len (env ++ [Some (PArr [])]) = len env + 1) by (rewrite len_app; reflexivity).
    destruct (elems_read_all l IH W c W' (env ++ [Some (PArr [])]) up HM Hok) as (ps & env' & R & L' & G'); [rewrite L; exact HF|rewrite L; exact HU|apply gaps_some, G|intros i Hi; specialize (HI i Hi); lia|].
    do 2 eexists. split; [apply rd_strict, R|]. split; [rewrite L', L; cbn [slots]; lia|exact G'].
  - destruct HM as [-> HM]. destruct Hok as [_ Hok]. apply all_of_map in Hok. rewrite up_typed in HU. rewrite refs_typed in HF. assert (L : len (env ++ [Some (PTyped [] [])]) = len env + 1) by (rewrite len_app; reflexivity).
    destruct (OBJ fs W W' (env ++ [Some (PTyped [] [])]) up (len env + 1) IH HM Hok L) as (ps & env' & R & L2 & G' & L'); [replace (len env + 1 + 1) with (len env + 2) by lia; exact HF|replace (len env + 1 + 1) with (len env + 2) by lia; exact HU|apply gaps_some, G|intros i Hi; specialize (HI i Hi); lia|].
    rewrite app_length in *. cbn [length] in *. rewrite Nat.add_1_r in *. rewrite <- app_assoc in R. do 2 eexists. split; [eapply rd_typed, R|]. split; [rewrite L'; cbn [slots]; lia|exact G'].
Qed.
