(** AMF0: the value of documents with references. *)
From Coq Require Import Permutation.
From Verif Require Import Base.Go Base.GoFacts Base.IO Base.Float64 Proofs.IOFacts Proofs.Float64
  Model.AmfTypes Model.Amf3 Model.Amf0 Spec.Amf Spec.AmfDoc Proofs.AmfFacts Proofs.Amf0Enc Proofs.Amf0RT Proofs.Amf0Doc Proofs.AmfContr Proofs.Amf0Acc Proofs.Amf0Panic Proofs.AmfTame.

Section Unfold.
  Variable lib : bool.
  Fixpoint dfields (env : list (option pval)) (fs : list (bytes * doc0)) : option (list (bytes * pval) * list (option pval)) :=
    match fs with
    | [] => Some ([], env)
    | (k, x) :: fs' =>
        match deref lib env x with
        | Some (p, env1) => match dfields env1 fs' with Some (ps, env2) => Some ((k, p) :: ps, env2) | None => None end
        | None => None
        end
    end.
  Fixpoint delems (env : list (option pval)) (l : list doc0) : option (list pval * list (option pval)) :=
    match l with
    | [] => Some ([], env)
    | x :: l' =>
        match deref lib env x with
        | Some (p, env1) => match delems env1 l' with Some (ps, env2) => Some (p :: ps, env2) | None => None end
        | None => None
        end
    end.
  Definition dobj env fs (fin : list (bytes * pval) -> pval) :=
    match dfields (env ++ [None]) fs with
    | Some (ps, env') => Some (members ps, complete (length env) (fin (members ps)) env')
    | None => None
    end.
  Lemma deref_object env fs : deref lib env (A_object fs) = match dobj env fs PObj with Some (ms, env') => Some (PObj ms, env') | None => None end.
  Proof. reflexivity. Qed.
  Lemma deref_ecma env n fs : deref lib env (A_ecma n fs) = match dobj env fs PObj with Some (ms, env') => Some (PObj ms, env') | None => None end.
  Proof. reflexivity. Qed.
  Lemma deref_strict env l : deref lib env (A_strict l) =
    match delems (env ++ [if lib then Some (PArr []) else None]) l with
    | Some (ps, env') => Some (PArr ps, if lib then env' else complete (length env) (PArr ps) env')
    | None => None
    end.
  Proof. reflexivity. Qed.
End Unfold.
Lemma deref_typed env ty fs : deref true env (A_typed ty fs) =
  match dobj true (env ++ [Some (PTyped [] [])]) fs PObj with Some (ms, env') => Some (PTyped ty ms, env') | None => None end.
Proof. reflexivity. Qed.

Definition agree_but (opn : list nat) (h H : list omap) : Prop := forall i, (i < length h)%nat -> ~ In i opn -> nth_error H i = nth_error h i.
Definition good opn h v p : Prop := forall H, agree_but opn h H -> unfolds H v p.
Definition entry opn h (o : option pval) (v : value) : Prop := match o with Some p => good opn h v p | None => True end.
Definition tab_ok opn h env tab : Prop := Forall2 (entry opn h) env tab.
Definition below (opn : list nat) (n : nat) : Prop := forall i, In i opn -> (i < n)%nat.

Lemma good_more opn h new v p : good opn h v p -> good opn (h ++ new) v p.
Proof. intros G H HA. apply G. intros i Hi Ho. rewrite HA; [apply nth_error_app1, Hi|rewrite app_length; lia|exact Ho]. Qed.
Lemma entry_more opn h new o v : entry opn h o v -> entry opn (h ++ new) o v.
Proof. destruct o; [apply good_more|trivial]. Qed.
Lemma tab_more opn h new env tab : tab_ok opn h env tab -> tab_ok opn (h ++ new) env tab.
Proof. intros H. induction H; constructor; [apply entry_more; assumption|assumption]. Qed.
(** Opening the location that comes next, and closing it. *)
Lemma good_open opn h m v p : good opn h v p -> good (length h :: opn) (h ++ [m]) v p.
Proof. intros G H HA. apply G. intros i Hi Ho. rewrite HA; [apply nth_error_app1, Hi|rewrite app_length; lia|]. intros [X|X]; [lia|tauto]. Qed.
Lemma tab_open opn h m env tab : tab_ok opn h env tab -> tab_ok (length h :: opn) (h ++ [m]) env tab.
Proof. intros H. induction H as [|o v]; constructor; [destruct o; [apply good_open; assumption|exact I]|assumption]. Qed.
Lemma good_close opn a h v p : good (a :: opn) h v p -> good opn h v p.
Proof. intros G H HA. apply G. intros i Hi Ho. apply HA; [exact Hi|]. intros X. apply Ho. right. exact X. Qed.
Lemma tab_close opn a h env tab : tab_ok (a :: opn) h env tab -> tab_ok opn h env tab.
Proof. intros H. induction H as [|o v]; constructor; [destruct o; [apply (good_close opn a); assumption|exact I]|assumption]. Qed.
(** A change at the open location does not matter. *)
Lemma upd_length {A} (f : A -> A) : forall h n, length (upd_nth n f h) = length h.
Proof. induction h as [|x h IH]; intros [|n]; cbn [upd_nth length]; try reflexivity. f_equal. apply IH. Qed.
Lemma upd_other {A} (f : A -> A) : forall h n i, i <> n -> nth_error (upd_nth n f h) i = nth_error h i.
Proof. induction h as [|x h IH]; intros [|n] [|i] Hi; cbn [upd_nth nth_error]; try reflexivity; [lia|]. apply IH. lia. Qed.
Lemma good_upd opn a f h v p : good (a :: opn) h v p -> good (a :: opn) (upd_nth a f h) v p.
Proof.
  intros G H HA. apply G. intros i Hi Ho. assert (Ha : i <> a) by (intros ->; apply Ho; left; reflexivity).
  rewrite HA; [apply upd_other, Ha|rewrite upd_length; exact Hi|exact Ho].
Qed.
Lemma tab_upd opn a f h env tab : tab_ok (a :: opn) h env tab -> tab_ok (a :: opn) (upd_nth a f h) env tab.
Proof. intros H. induction H as [|o v]; constructor; [destruct o; [apply good_upd; assumption|exact I]|assumption]. Qed.

Definition RTU (t : doc0) : Prop := doc_ok true t -> no_avm t -> forall env p env', deref true env t = Some (p, env') ->
  forall opn fuel d rest e, tab_ok opn (d_heap d) env (d_ref0 d) -> below opn (length (d_heap d)) ->
  (length (layout0 t) < fuel)%nat -> d_r d = contr (layout0 t ++ rest) e -> doc_end rest e t ->
  exists d' v new, dec0 fuel d = (d', Ok v) /\ d_r d' = contr rest e /\ d_heap d' = d_heap d ++ new /\
    good opn (d_heap d') v p /\ tab_ok opn (d_heap d') env' (d_ref0 d').

Definition urel opn h (m : omap) (ps : list (bytes * pval)) := Forall2 (fun a b => fst a = fst b /\ good opn h (snd a) (snd b)) m ps.
Lemma urel_set opn h k v p : good opn h v p -> forall m ps, urel opn h m ps -> urel opn h (map_set k v m) (put k p ps).
Proof.
  intros U m ps HR. induction HR as [|[k1 v1] [k2 p2] m ps [E U1] HR IH]; cbn [map_set put fst snd] in *.
  - repeat constructor. exact U.
  - subst k2. destruct (bytes_eqb k k1); constructor; try assumption; split; [reflexivity|assumption|reflexivity|assumption].
Qed.
Lemma urel_imp opn h opn' h' m ps : (forall v p, good opn h v p -> good opn' h' v p) -> urel opn h m ps -> urel opn' h' m ps.
Proof. intros HI HR. induction HR as [|a b m ps [H1 H2] HR IH]; constructor; [split; [exact H1|apply HI, H2]|exact IH]. Qed.

Lemma ref_fields fs : Forall (fun p => RTU (snd p)) fs -> Forall fgood fs -> forall env ps env', dfields true env fs = Some (ps, env') ->
  forall opn fuel k d rest e h m hs acc, tab_ok (length h :: opn) (d_heap d) env (d_ref0 d) -> below opn (length h) ->
  (length (layout_fields fs) < fuel)%nat -> (length fs < k)%nat -> d_r d = contr (layout_fields fs ++ [0; 0; 9] ++ rest) e ->
  d_heap d = h ++ m :: hs -> urel (length h :: opn) (d_heap d) m acc ->
  exists d' m' hs', obj_loop (dec0 fuel) k (length h) d = (d', Ok tt) /\ d_r d' = contr rest e /\ d_heap d' = h ++ m' :: hs ++ hs' /\
    tab_ok (length h :: opn) (d_heap d') env' (d_ref0 d') /\ urel (length h :: opn) (d_heap d') m' (putall acc ps).
Proof.
  induction fs as [|[key t] fs IH]; intros HRT Hok env ps env' ED opn fuel k d rest e h m hs acc HT HO Hf Hk Hr Hh HR.
  - cbn [dfields] in ED. inversion ED; subst. exists (set_r (contr rest e) d), m, []. rewrite app_nil_r. cbn [set_r d_r d_heap d_ref0 putall fold_left].
    split; [apply obj_loop_end; [cbn [length] in Hk; lia|exact Hr]|]. split; [reflexivity|]. split; [exact Hh|]. split; [exact HT|exact HR].
  - inversion HRT as [|? ? HRt HRl]; inversion Hok as [|? ? [[Hkl Hot] Hno] Hol]; subst. cbn [fst snd] in *. cbn [dfields] in ED.
    destruct (deref true env t) as [[p env1]|] eqn:E1; [|discriminate]. destruct (dfields true env1 fs) as [[ps1 env2]|] eqn:E2; [|discriminate]. inversion ED; subst ps env2. clear ED.
    destruct k as [|k]; [cbn [length] in Hk; lia|].
    unfold layout_fields in Hf, Hr. cbn [map concat fst snd] in Hf, Hr. fold (layout_fields fs) in Hf, Hr. rewrite <- !app_assoc in Hr. rewrite !app_length in Hf.
    assert (Hkne : key <> []) by (intros ->; unfold len in Hkl; cbn [length] in Hkl; lia).
    set (d0 := set_r (contr (layout0 t ++ layout_fields fs ++ [0; 0; 9] ++ rest) e) d).
    assert (Es : decode_string0 d = (d0, Ok key)) by (unfold d0; apply decode_string0_contr; [exact Hr|lia|left; exact Hkne]).
    assert (HB0 : below (length h :: opn) (length (d_heap d0))).
    { intros i Hi. change (d_heap d0) with (d_heap d). rewrite Hh, app_length. cbn [length]. destruct Hi as [<-|Hi]; [lia|]. specialize (HO i Hi). lia. }
    destruct (HRt Hot Hno env p env1 E1 (length h :: opn) fuel d0 (layout_fields fs ++ [0; 0; 9] ++ rest) e HT HB0 ltac:(lia) eq_refl) as (d1 & v & new & D1 & R1 & H1 & G1 & T1).
    { left. intros X. apply app_eq_nil in X. destruct X; discriminate. }
    change (d_heap d0) with (d_heap d) in H1.
    set (d2 := set_heap (upd_nth (length h) (map_set key v) (d_heap d1)) d1).
    assert (Hd2 : d_heap d2 = h ++ (map_set key v m) :: (hs ++ new)) by (unfold d2; cbn [d_heap set_heap]; rewrite H1, Hh, <- app_assoc, <- app_comm_cons, upd_nth_app; reflexivity).
    destruct (IH HRl Hol env1 ps1 env' E2 opn fuel k d2 rest e h (map_set key v m) (hs ++ new) (put key p acc)) as (d3 & m' & hs' & D3 & R3 & H3 & T3 & U3).
    + unfold d2. cbn [d_heap set_heap d_ref0]. apply tab_upd, T1.
    + exact HO.
    + lia.
    + cbn [length] in Hk. lia.
    + exact R1.
    + exact Hd2.
    + apply urel_set; unfold d2; cbn [d_heap set_heap]; [apply good_upd, G1|]. eapply urel_imp; [|exact HR]. intros w q Hw. apply good_upd. rewrite H1. apply good_more, Hw.
    + exists d3, m', (new ++ hs'). split; [|split; [exact R3|split; [rewrite H3, <- app_assoc; reflexivity|split; [exact T3|exact U3]]]].
      cbn [obj_loop]. erewrite dbind_ok by exact Es. destruct key as [|c key]; [congruence|]. erewrite dbind_ok by exact D1. erewrite dbind_ok by reflexivity. exact D3.
Qed.

Lemma ref_elems l : Forall RTU l -> Forall (fun t => doc_ok true t /\ no_avm t) l -> forall env ps env', delems true env l = Some (ps, env') ->
  forall opn fuel k d rest e, tab_ok opn (d_heap d) env (d_ref0 d) -> below opn (length (d_heap d)) ->
  (length (concat (map layout0 l)) < fuel)%nat -> (length l <= k)%nat -> d_r d = contr (concat (map layout0 l) ++ rest) e -> doc_end rest e (A_strict l) ->
  exists d' vs new, loop_n (dec0 fuel) k (len l) d = (d', Ok vs) /\ d_r d' = contr rest e /\ d_heap d' = d_heap d ++ new /\
    Forall2 (good opn (d_heap d')) vs ps /\ tab_ok opn (d_heap d') env' (d_ref0 d').
Proof.
  induction l as [|t l IH]; intros HRT Hok env ps env' ED opn fuel k d rest e HT HO Hf Hk Hr Hs.
  - cbn [delems] in ED. inversion ED; subst. exists d, [], []. rewrite app_nil_r. split; [destruct k; reflexivity|]. split; [exact Hr|]. split; [reflexivity|]. split; [constructor|exact HT].
  - inversion HRT as [|? ? HRt HRl]; inversion Hok as [|? ? [Hot Hno] Hol]; subst. cbn [delems] in ED.
    destruct (deref true env t) as [[p env1]|] eqn:E1; [|discriminate]. destruct (delems true env1 l) as [[ps1 env2]|] eqn:E2; [|discriminate]. inversion ED; subst ps env2. clear ED.
    destruct k as [|k]; [cbn [length] in Hk; lia|]. cbn [map concat] in Hf, Hr. rewrite app_length in Hf. rewrite <- app_assoc in Hr.
    destruct (HRt Hot Hno env p env1 E1 opn fuel d (concat (map layout0 l) ++ rest) e HT HO ltac:(lia) Hr) as (d1 & v & new & D1 & R1 & H1 & G1 & T1).
    { destruct Hs as [Hs|[Hs|Hs]]; [left; intros X; apply app_eq_nil in X; tauto|right; left; exact Hs|]. destruct l as [|t2 l]; [right; right; exact Hs|].
      left. intros X. apply app_eq_nil in X. destruct X as [X _]. cbn [map concat] in X. apply app_eq_nil in X. destruct X as [X _]. pose proof (layout0_nonempty t2) as Hx. rewrite X in Hx. cbn in Hx. lia. }
    destruct (IH HRl Hol env1 ps1 env' E2 opn fuel k d1 rest e T1) as (d2 & vs & new2 & D2 & R2 & H2 & G2 & T2); [|lia|cbn [length] in Hk; lia|exact R1| |].
    { intros i Hi. rewrite H1, app_length. specialize (HO i Hi). lia. }
    { destruct Hs as [Hs|[Hs|Hs]]; [left; exact Hs|right; left; exact Hs|]. destruct l as [|t2 l]; [right; right; reflexivity|].
      right; right. destruct (exists_last (l := t2 :: l) ltac:(discriminate)) as (l' & x & El). rewrite El in *. rewrite doc_ends_last. change (t :: l' ++ [x]) with ((t :: l') ++ [x]) in Hs. rewrite doc_ends_last in Hs. exact Hs. }
    exists d2, (v :: vs), (new ++ new2). split; [|split; [exact R2|split; [rewrite H2, H1, app_assoc; reflexivity|split; [constructor; [rewrite H2; apply good_more, G1|exact G2]|exact T2]]]].
    cbn [loop_n]. destruct (Z.leb_spec (len (t :: l)) 0); [rewrite len_cons in *; pose proof (len_nonneg l); lia|]. erewrite dbind_ok by exact D1.
    replace (len (t :: l) - 1) with (len l) by (rewrite len_cons; lia). erewrite dbind_ok by exact D2. reflexivity.
Qed.

Lemma tab_complete opn h n p v : forall env tab, tab_ok opn h env tab -> nth_error tab n = Some v -> good opn h v p -> tab_ok opn h (complete n p env) tab.
Proof.
  induction n as [|n IH]; intros env tab HT Hn G; destruct HT as [|o w env tab HE HT]; try discriminate; unfold complete in *; cbn [firstn skipn app nth_error] in *.
  - inversion Hn; subst. constructor; [exact G|exact HT].
  - constructor; [exact HE|]. apply IH; assumption.
Qed.
Lemma tab_len opn h env tab : tab_ok opn h env tab -> length env = length tab.
Proof. intros H. induction H; cbn [length]; [reflexivity|f_equal; assumption]. Qed.
Lemma tab_snoc opn h env tab o v : tab_ok opn h env tab -> entry opn h o v -> tab_ok opn h (env ++ [o]) (tab ++ [v]).
Proof. intros H HE. induction H; cbn [app]; constructor; try assumption. constructor. Qed.

Lemma ref_object fs : Forall (fun p => RTU (snd p)) fs -> Forall fgood fs -> forall env ms env', dobj true env fs PObj = Some (ms, env') ->
  forall opn fuel k d rest e, tab_ok opn (d_heap d) env (d_ref0 d) -> below opn (length (d_heap d)) ->
  (length (layout_fields fs) < fuel)%nat -> (length fs < k)%nat -> d_r d = contr (layout_fields fs ++ [0; 0; 9] ++ rest) e ->
  exists d' m hs, decode_object0 (dec0 fuel) k d = (d', Ok (length (d_heap d))) /\ d_r d' = contr rest e /\ d_heap d' = d_heap d ++ m :: hs /\
    (forall H, agree_but opn (d_heap d') H -> nth_error H (length (d_heap d)) = Some m /\ frel H m ms) /\ tab_ok opn (d_heap d') env' (d_ref0 d').
Proof.
  intros HRT Hok env ms env' ED opn fuel k d rest e HT HO Hf Hk Hr. unfold dobj in ED. destruct (dfields true (env ++ [None]) fs) as [[ps env1]|] eqn:E1; [|discriminate]. inversion ED; subst ms env'. clear ED.
  unfold decode_object0. erewrite dbind_ok by reflexivity. erewrite dbind_ok by reflexivity. set (d1 := set_ref0 _ _).
  assert (HT1 : tab_ok (length (d_heap d) :: opn) (d_heap d1) (env ++ [None]) (d_ref0 d1)) by (apply tab_snoc; [apply tab_open, HT|exact I]).
  destruct (ref_fields fs HRT Hok _ _ _ E1 opn fuel k d1 rest e (d_heap d) [] [] [] HT1 HO Hf Hk Hr eq_refl ltac:(constructor)) as (d2 & m & hs & D & R & Hh & T & U).
  assert (G : forall H, agree_but opn (d_heap d2) H -> nth_error H (length (d_heap d)) = Some m /\ frel H m (members ps)).
  { intros H HA. split.
    - rewrite HA; [rewrite Hh; apply nth_error_len|rewrite Hh, app_length; cbn [length]; lia|]. intros X. specialize (HO _ X). lia.
    - assert (HA' : agree_but (length (d_heap d) :: opn) (d_heap d2) H) by (intros i Hi Ho; apply HA; [exact Hi|intros X; apply Ho; right; exact X]).
      unfold members. change (fold_left (fun acc p => put (fst p) (snd p) acc) ps []) with (putall [] ps). clear - U HA'. induction U as [|a b m ps' [H1 H2] U IH]; constructor; [split; [exact H1|apply H2, HA']|exact IH]. }
  exists d2, m, hs. split; [erewrite dbind_ok by exact D; reflexivity|]. split; [exact R|]. split; [exact Hh|]. split; [exact G|].
  apply (tab_complete _ _ _ _ (VObj (length (d_heap d)))); [apply (tab_close _ _ _ _ _ T)| |].
  - pose proof (tame_obj_loop (dec0 fuel) (tame_dec0 fuel) (length (d_heap d)) k d1) as [(HX & _) _]. rewrite D in HX. cbn [fst] in HX. eapply extends_nth; [exact HX|].
    unfold d1. cbn [set_ref0 d_ref0]. rewrite (tab_len _ _ _ _ HT). apply nth_error_len.
  - intros H HA. destruct (G H HA) as [G1 G2]. econstructor; [exact G1|exact G2|apply Permutation_refl].
Qed.

Lemma leaf_ref (m : Dm value) d d' v p opn env rest e : m d = (d', Ok v) -> d_r d' = contr rest e -> d_heap d' = d_heap d -> d_ref0 d' = d_ref0 d ->
  (forall H, unfolds H v p) -> tab_ok opn (d_heap d) env (d_ref0 d) ->
  exists d' v new, m d = (d', Ok v) /\ d_r d' = contr rest e /\ d_heap d' = d_heap d ++ new /\ good opn (d_heap d') v p /\ tab_ok opn (d_heap d') env (d_ref0 d').
Proof. intros E R H1 H2 U T. exists d', v, []. rewrite app_nil_r, H1, H2. split; [exact E|]. split; [exact R|]. split; [reflexivity|]. split; [intros H _; apply U|exact T]. Qed.
Theorem dec0_ref t : RTU t.
Proof.
  induction t as [b|b|s|fs IH| | |i|s|n fs IH|l IH|b z|s| |s|ty fs IH] using doc0_ind';
    intros Hok Hno env p env' ED opn [|fuel] d rest e HT HO Hf Hr Hs; try (exfalso; lia); cbn [doc_ok no_avm layout0] in *;
    change (2 ^ 64) with 18446744073709551616 in *; change (2 ^ 32) with 4294967296 in *; change (2 ^ 16) with 65536 in *.
  - inversion ED; subst. eapply leaf_ref; [apply dec0_number; [exact Hok|exact Hr]|reflexivity|reflexivity|reflexivity|constructor|exact HT].
  - inversion ED; subst. eapply leaf_ref; [step0 Hr; erewrite dbind_ok by (eapply read_byte_contr; reflexivity); reflexivity|reflexivity|reflexivity|reflexivity|constructor|exact HT].
  - assert (Hs' : s <> [] \/ rest <> [] \/ e_zero e = false).
    { destruct s; [|left; discriminate]. destruct Hs as [H|[H|H]]; [tauto|tauto|cbn in H; discriminate]. }
    inversion ED; subst. eapply leaf_ref; [step0 Hr; erewrite dbind_ok by (eapply decode_string0_contr; [reflexivity|lia|exact Hs']); reflexivity|reflexivity|reflexivity|reflexivity|constructor|exact HT].
  - pose proof (fgood_of fs Hok Hno) as Hg. cbn [length app] in Hf, Hr. rewrite app_length in Hf. fold (layout_fields fs) in Hf, Hr.
    rewrite <- app_assoc in Hr. cbn [length] in Hf. pose proof (layout_fields_length fs) as Hwl.
    rewrite deref_object in ED. destruct (dobj true env fs PObj) as [[ms env1]|] eqn:E1; [|discriminate]. inversion ED; subst p env1.
    destruct (ref_object fs IH Hg _ _ _ E1 opn fuel fuel (set_r (contr (layout_fields fs ++ [0; 0; 9] ++ rest) e) d) rest e HT HO) as (d' & m & hs & E & R & Hh & G & T); [lia|lia|reflexivity|].
    exists d', (VObj (length (d_heap d))), (m :: hs). split; [step0 Hr; erewrite dbind_ok by exact E; reflexivity|]. split; [exact R|]. split; [exact Hh|]. split; [|exact T].
    intros H HA. destruct (G H HA) as [G1 G2]. econstructor; [exact G1|exact G2|apply Permutation_refl].
  - inversion ED; subst. eapply leaf_ref; [step0 Hr; reflexivity|reflexivity|reflexivity|reflexivity|constructor|exact HT].
  - inversion ED; subst. eapply leaf_ref; [step0 Hr; reflexivity|reflexivity|reflexivity|reflexivity|constructor|exact HT].
  - destruct Hok as [_ Hi]. cbn [deref] in ED. destruct (nth_error env (Z.to_nat i)) as [[q|]|] eqn:En; try discriminate. inversion ED; subst. cbn [app] in Hr.
    assert (HX : exists v, nth_error (d_ref0 d) (Z.to_nat i) = Some v /\ good opn (d_heap d) v p).
    { clear - HT En. unfold tab_ok in HT. revert En. generalize (Z.to_nat i). induction HT as [|o v env' tab HE HT IH]; intros [|n] En; cbn [nth_error] in *; try discriminate; [|apply IH, En].
      inversion En; subst. exists v. split; [reflexivity|exact HE]. }
    destruct HX as (v & Hv & G). assert (Hl : (Z.to_nat i < length (d_ref0 d))%nat) by (apply nth_error_Some; congruence).
    exists (set_r (contr rest e) d), v, []. rewrite app_nil_r. split; [|split; [reflexivity|split; [reflexivity|split; [exact G|exact HT]]]].
    step0 Hr. unfold decode_reference0. erewrite dbind_ok by (change 2 with (len (be16 i)); eapply read_be_contr; [reflexivity|reflexivity]). rewrite be_val_be16, Z.mod_small by lia. cbn [d_ref0 set_r].
    unfold len. destruct (Z.ltb_spec (Z.of_nat (length (d_ref0 d))) i); [lia|]. destruct (Z.eqb_spec i (Z.of_nat (length (d_ref0 d)))); [lia|]. erewrite nth_error_nth by exact Hv. reflexivity.
  - destruct Hno.
  - destruct Hok as [Hn Hok]. pose proof (fgood_of fs Hok Hno) as Hg. cbn [length app] in Hf, Hr. rewrite !app_length in Hf. fold (layout_fields fs) in Hf, Hr.
    rewrite <- !app_assoc in Hr. cbn [length be32] in Hf. pose proof (layout_fields_length fs) as Hwl.
    rewrite deref_ecma in ED. destruct (dobj true env fs PObj) as [[ms env1]|] eqn:E1; [|discriminate]. inversion ED; subst p env1.
    destruct (ref_object fs IH Hg _ _ _ E1 opn fuel fuel (set_r (contr (layout_fields fs ++ [0; 0; 9] ++ rest) e) d) rest e HT HO) as (d' & m & hs & E & R & Hh & G & T); [lia|lia|reflexivity|].
    exists d', (VObj (length (d_heap d))), (m :: hs). split.
    { step0 Hr. unfold decode_ecma0. erewrite dbind_ok by (change 4 with (len (be32 n)); eapply read_be_contr; [reflexivity|reflexivity]).
      rewrite ?set_r_set_r. erewrite dbind_ok by exact E. reflexivity. }
    split; [exact R|]. split; [exact Hh|]. split; [|exact T]. intros H HA. destruct (G H HA) as [G1 G2]. econstructor; [exact G1|exact G2|apply Permutation_refl].
  - destruct Hok as [Hlen Hall]. apply all_of_map in Hall. apply all_of_map in Hno.
    assert (Hg : Forall (fun t => doc_ok true t /\ no_avm t) l) by (rewrite Forall_forall in *; intros x Hx; split; [apply Hall, Hx|apply Hno, Hx]).
    cbn [length app] in Hf, Hr. rewrite app_length in Hf. cbn [be32 length] in Hf. rewrite <- app_assoc in Hr.
    rewrite deref_strict in ED. cbn iota in ED. destruct (delems true (env ++ [Some (PArr [])]) l) as [[ps env1]|] eqn:E1; [|discriminate]. inversion ED; subst p env1.
    set (d1 := set_ref0 (d_ref0 d ++ [VArr []]) (set_r (contr (concat (map layout0 l) ++ rest) e) d)). pose proof (concat_layout_length l) as Hcl.
    assert (HT1 : tab_ok opn (d_heap d1) (env ++ [Some (PArr [])]) (d_ref0 d1)) by (apply tab_snoc; [exact HT|intros H _; repeat constructor]).
    destruct (ref_elems l IH Hg _ _ _ E1 opn fuel fuel d1 rest e HT1 HO) as (d' & vs & new & E & R & Hh & G & T); [lia|lia|reflexivity|exact Hs|].
    exists d', (VArr vs), new. split.
    { step0 Hr. unfold decode_strict0. erewrite dbind_ok by (change 4 with (len (be32 (len l))); eapply read_be_contr; [reflexivity|reflexivity]).
      rewrite be_val_be32, Z.mod_small by (pose proof (len_nonneg l); lia). erewrite dbind_ok by reflexivity. erewrite dbind_ok by exact E. reflexivity. }
    split; [exact R|]. split; [exact Hh|]. split; [|exact T]. intros H HA. constructor. clear - G HA. induction G as [|a b vs ps G1 G IHG]; constructor; [apply G1, HA|exact IHG].
  - destruct Hok as [Hb Hz]. cbn [app] in Hr. rewrite <- app_assoc in Hr. inversion ED; subst. eapply leaf_ref.
    + step0 Hr. unfold decode_date0.
      erewrite dbind_ok by (change 8 with (len (be64 b)); eapply read_be_contr; [reflexivity|reflexivity]).
      erewrite dbind_ok by (change 2 with (len (be16 z)); eapply read_bytes_contr; [reflexivity|reflexivity]). rewrite be_val_be64, Z.mod_small by exact Hb. reflexivity.
    + reflexivity.
    + reflexivity.
    + reflexivity.
    + constructor.
    + exact HT.
  - assert (Hs' : s <> [] \/ rest <> [] \/ e_zero e = false).
    { destruct s; [|left; discriminate]. destruct Hs as [H|[H|H]]; [tauto|tauto|cbn in H; discriminate]. }
    inversion ED; subst. eapply leaf_ref; [step0 Hr; erewrite dbind_ok by (eapply decode_longstring0_contr; [reflexivity|lia|exact Hs']); reflexivity|reflexivity|reflexivity|reflexivity|constructor|exact HT].
  - inversion ED; subst. eapply leaf_ref; [step0 Hr; reflexivity|reflexivity|reflexivity|reflexivity|constructor|exact HT].
  - assert (Hs' : s <> [] \/ rest <> [] \/ e_zero e = false).
    { destruct s; [|left; discriminate]. destruct Hs as [H|[H|H]]; [tauto|tauto|cbn in H; discriminate]. }
    inversion ED; subst. eapply leaf_ref; [step0 Hr; erewrite dbind_ok by (eapply decode_longstring0_contr; [reflexivity|lia|exact Hs']); reflexivity|reflexivity|reflexivity|reflexivity|constructor|exact HT].
  - destruct Hok as (Htl & Hok). pose proof (fgood_of fs Hok Hno) as Hg.
    cbn [length app] in Hf, Hr. rewrite !app_length in Hf. fold (layout_fields fs) in Hf, Hr.
    rewrite <- !app_assoc in Hr. cbn [length] in Hf. pose proof (layout_fields_length fs) as Hwl.
    rewrite deref_typed in ED. destruct (dobj true (env ++ [Some (PTyped [] [])]) fs PObj) as [[ms env1]|] eqn:E1; [|discriminate]. inversion ED; subst p env1.
    set (d1 := set_r (contr (layout_fields fs ++ [0; 0; 9] ++ rest) e)
                 (set_ref0 (d_ref0 d ++ [VTyped [] None])
                    (set_r (contr (wire_utf8 ty ++ layout_fields fs ++ [0; 0; 9] ++ rest) e) d))).
    assert (HT1 : tab_ok opn (d_heap d1) (env ++ [Some (PTyped [] [])]) (d_ref0 d1)) by (apply tab_snoc; [exact HT|intros H _; constructor]).
    destruct (ref_object fs IH Hg _ _ _ E1 opn fuel fuel d1 rest e HT1 HO) as (d' & m & hs & E & R & Hh & G & T); [lia|lia|reflexivity|].
    exists d', (VTyped ty (Some (length (d_heap d)))), (m :: hs). split.
    { step0 Hr. unfold decode_typed0. erewrite dbind_ok by reflexivity.
      erewrite dbind_ok by (eapply decode_string0_contr; [reflexivity|exact Htl|right; left; intros X; apply app_eq_nil in X; destruct X; discriminate]).
      erewrite dbind_ok by exact E. reflexivity. }
    split; [exact R|]. split; [exact Hh|]. split; [|exact T]. intros H HA. destruct (G H HA) as [G1 G2]. econstructor; [exact G1|exact G2|apply Permutation_refl].
Qed.

(** Where the library and the specification agree. *)
Lemma deref_maps t : only_maps t -> forall env, deref true env t = deref false env t.
Proof.
  assert (F : forall fs, Forall (fun p => only_maps (snd p) -> forall env, deref true env (snd p) = deref false env (snd p)) fs -> all_of (map (fun p => only_maps (snd p)) fs) ->
    forall env, dobj true env fs PObj = dobj false env fs PObj).
  { intros fs IH H env. unfold dobj. assert (G : forall env, dfields true env fs = dfields false env fs).
    { clear env. apply all_of_map in H. induction fs as [|[k x] fs IHf]; intros env; cbn [dfields]; [reflexivity|]. apply Forall_cons_iff in IH. apply Forall_cons_iff in H. destruct IH as [H1 H2]. destruct H as [H3 H4]. cbn [snd] in *.
      rewrite (H1 H3 env). destruct (deref false env x) as [[p env1]|]; [|reflexivity]. rewrite (IHf H2 H4). reflexivity. }
    rewrite G. reflexivity. }
  induction t as [b|b|s|fs IH| | |i|s|n fs IH|l IH|b z|s| |s|ty fs IH] using doc0_ind'; intros Hm env; try reflexivity.
  - cbn [deref]. destruct Hm as [-> | ->]; reflexivity.
  - rewrite !deref_object, (F fs IH Hm). reflexivity.
  - rewrite !deref_ecma, (F fs IH Hm). reflexivity.
  - destruct Hm.
  - destruct Hm.
Qed.
Lemma plain_no_avm t : plain t -> no_avm t.
Proof.
  induction t as [b|b|s|fs IH| | |i|s|n fs IH|l IH|b z|s| |s|ty fs IH] using doc0_ind'; cbn [plain no_avm]; try tauto;
    rewrite !all_of_map; intros H; apply Forall_forall; intros q Hq; rewrite Forall_forall in *; apply (IH q Hq), (H q Hq).
Qed.
Lemma agree_extends (h H : list omap) : agree_but [] h H -> extends h H.
Proof.
  intros HA. exists (skipn (length h) H). rewrite <- (firstn_skipn (length h) H) at 1. f_equal.
  assert (E : forall i, (i < length h)%nat -> nth_error H i = nth_error h i) by (intros i Hi; apply HA; [exact Hi|intros []]). clear HA. revert H E.
  induction h as [|x h IH]; intros H E; cbn [firstn length]; [reflexivity|]. destruct H as [|y H]; [specialize (E 0%nat ltac:(cbn; lia)); discriminate|].
  cbn [firstn]. pose proof (E 0%nat ltac:(cbn; lia)) as E0. cbn in E0. inversion E0; subst. f_equal. apply IH. intros i Hi. apply (E (S i)). cbn. lia.
Qed.
