(** Proofs about how long the encoding of a decoded AMF3 value is. *)
From Coq Require Import Permutation.
From Verif Require Import Base.Go Base.GoFacts Base.IO Base.Float64 Model.AmfTypes Model.Amf3 Model.Amf0 Spec.Amf Spec.AmfDoc Spec.Amf3Doc Spec.Amf3Ref Spec.AmfRaw Spec.AmfRaw3 Spec.Amf3Again
  Proofs.AmfFacts Proofs.AmfHeap Proofs.Amf3Enc Proofs.Amf3Ref Proofs.AmfAgain Proofs.Amf3Again.
Import ListNotations.
Local Open Scope list_scope.
Local Open Scope Z_scope.

(** At least as long as the encoding. *)
Fixpoint up (p : pval) : Z :=
  match p with
  | PNil | PBool _ => 1
  | PNum _ | PU32 _ => 9
  | PStr s | PBytes s => 5 + len s
  | PTime _ => 10
  | PEcma _ _ => 0
  | PArr l => 6 + fold_right (fun x n => up x + n) 0 l
  | PObj fs => 6 + fold_right (fun f n => 4 + len (fst f) + up (snd f) + n) 0 fs
  | PTyped ty fs => 9 + len ty + fold_right (fun f n => 4 + len (fst f) + up (snd f) + n) 0 fs
  end.
Definition usum (fs : list (bytes * pval)) : Z := fold_right (fun f n => 4 + len (fst f) + up (snd f) + n) 0 fs.
Definition xsum (xs : list (bytes * bool)) : Z := fold_right (fun x n => len (fst x) + n) 0 xs.
Lemma usum_perm fs gs : Permutation fs gs -> usum fs = usum gs.
Proof. unfold usum. induction 1; cbn [fold_right]; lia. Qed.
Lemma then_len a b : len (fst (and_then a b)) <= len (fst a) + len (fst b).
Proof. unfold and_then. destruct (snd a); cbn [fst]; [rewrite len_app; lia|]. pose proof (len_nonneg (fst b)). lia. Qed.
Lemma order_len xs : len (fst (in_order xs)) <= xsum xs.
Proof.
  induction xs as [|x xs IH]; [vm_compute; congruence|]. unfold in_order, xsum in *. cbn [fold_right]. pose proof (then_len x (fold_right and_then ([], true) xs)). lia.
Qed.
Lemma number_len n : 0 <= n -> len (fst (number29 n)) <= 4.
Proof. intros H. unfold number29. destruct (n <? 2 ^ 29); cbn [done fst]; [pose proof (wire_u29_len n H); lia|vm_compute; congruence]. Qed.
Lemma length_len n : len (fst (length29 n)) <= 4.
Proof. apply number_len. pose proof (Z.mod_pos_bound (2 * n) (2 ^ 32) ltac:(lia)). lia. Qed.
Lemma text_len s : len (fst (text29 s)) <= 4 + len s.
Proof. unfold text29. pose proof (then_len (length29 (len s)) (done s)) as X. pose proof (length_len (len s)). cbn [done fst] in *. lia. Qed.
Lemma number_len' n : len (fst (number29 ((16 * n) mod 2 ^ 32 + 3))) <= 4.
Proof. apply number_len. pose proof (Z.mod_pos_bound (16 * n) (2 ^ 32) ltac:(lia)). lia. Qed.
Lemma xsum_app xs ys : xsum (xs ++ ys) = xsum xs + xsum ys.
Proof. unfold xsum. induction xs as [|x xs IH]; cbn [app fold_right]; lia. Qed.

Lemma written_up p : forall x, written3 (same_go p) x -> len (fst x) <= up p.
Proof.
  induction p as [p IH] using (well_founded_induction (Wf_nat.well_founded_ltof _ psize)). unfold Wf_nat.ltof in IH.
  assert (FS : forall fs fs' xs, (forall f, In f fs -> psize (snd f) < psize p)%nat -> Permutation (map (fun f => (fst f, same_go (snd f))) fs) fs' -> Forall2 written3 (map snd fs') xs ->
    xsum (map text29 (map fst fs') ++ xs) <= usum fs).
  { intros fs fs' xs Hs HP HF. apply Permutation_sym, Permutation_map_inv in HP. destruct HP as (gs & -> & HP). rewrite (usum_perm _ _ HP).
    assert (G : Forall (fun f : bytes * pval => (psize (snd f) < psize p)%nat) gs) by (rewrite Forall_forall; intros f Hf; apply Hs; apply (Permutation_in _ (Permutation_sym HP) Hf)).
    clear Hs HP. rewrite xsum_app. revert xs HF. induction G as [|f gs Hf _ IHg]; intros xs HF; cbn [map fst snd] in *; inversion HF as [|? x ? xs' HX HF']; subst; [vm_compute; congruence|].
    specialize (IHg _ HF'). specialize (IH _ Hf _ HX). unfold xsum, usum in *. cbn [fold_right]. pose proof (text_len (fst f)). lia. }
  intros x HX. destruct p as [ |b|b|s|n|sec|s|l|l fs|fs|ty fs]; cbn [same_go up] in *; inversion HX; subst; cbn [done fst];
    repeat match goal with H : (if ?b then _ else _) = _ |- _ => destruct b; try discriminate H; try (injection H; intros; subst) end; cbn [done fst]; rewrite ?len_cons, ?len_be64; change (len (@nil Z)) with 0; try lia.
  - pose proof (then_len (done [6]) (text29 s)) as X. cbn [done fst] in X. change (len [6]) with 1 in X. pose proof (text_len s). lia.
  - pose proof (wire_u29_len n ltac:(lia)). lia.
  - pose proof (then_len (done [12]) (text29 s)) as X. cbn [done fst] in X. change (len [12]) with 1 in X. pose proof (text_len s). lia.
  - match goal with |- len (fst (in_order ?y)) <= _ => pose proof (order_len y) as X end. rewrite xsum_app in X. unfold xsum at 1 in X. cbn [fold_right done fst] in X. change (len [9]) with 1 in X. change (len [1]) with 1 in X. pose proof (length_len (len (map same_go l))).
    assert (Y : xsum xs <= fold_right (fun x n => up x + n) 0 l); [|lia].
    assert (Hs : forall x, In x l -> (psize x < psize (PArr l))%nat) by (intros x Hx; apply psize_in in Hx; cbn [psize]; lia).
    match goal with H : Forall2 written3 _ xs |- _ => rename H into HF end. clear X HX. revert IH Hs xs HF. generalize (psize (PArr l)) as N. clear. intros N IH Hs. induction l as [|q l IHl]; intros xs HF; cbn [map] in HF; inversion HF as [|? x ? xs' HX HF']; subst; [apply Z.le_refl|].
    unfold xsum in *. cbn [fold_right]. pose proof (IH q (Hs q (or_introl eq_refl)) _ HX). specialize (IHl ltac:(intros; apply Hs; right; assumption) _ HF'). lia.
  - match goal with |- len (fst (in_order ?y)) <= _ => pose proof (order_len y) as X end. rewrite xsum_app in X. unfold xsum at 1 in X. cbn [fold_right done fst] in X. change (len [10]) with 1 in X. change (len [1]) with 1 in X.
    match type of X with context [number29 ((16 * ?n) mod _ + 3)] => pose proof (number_len' n) end.
    match goal with H : Permutation _ ?fs', H2 : Forall2 written3 _ ?xs |- _ => pose proof (FS fs fs' xs ltac:(intros f Hf; apply psize_in_f in Hf; cbn [psize]; lia) H H2) end. unfold usum in *. lia.
  - match goal with |- len (fst (in_order ?y)) <= _ => pose proof (order_len y) as X end. rewrite xsum_app in X. unfold xsum at 1 in X. cbn [fold_right done fst] in X. change (len [10]) with 1 in X. pose proof (text_len ty).
    match type of X with context [number29 ((16 * ?n) mod _ + 3)] => pose proof (number_len' n) end.
    match goal with H : Permutation _ ?fs', H2 : Forall2 written3 _ ?xs |- _ => pose proof (FS fs fs' xs ltac:(intros f Hf; apply psize_in_f in Hf; cbn [psize]; lia) H H2) end. unfold usum in *. lia.
Qed.

(** The order of the members does not matter. *)
Lemma up_order h p : forall v q, unfolds h v p -> unfolds h v q -> up p = up q.
Proof.
  induction p as [p IH] using (well_founded_induction (Wf_nat.well_founded_ltof _ psize)). unfold Wf_nat.ltof in IH. intros v q Hp Hq.
  assert (FS : forall m fs fs' gs gs', (forall f, In f fs' -> psize (snd f) < psize p)%nat ->
    Forall2 (fun a b => fst a = fst b /\ unfolds h (snd a) (snd b)) m fs -> Permutation fs fs' ->
    Forall2 (fun a b => fst a = fst b /\ unfolds h (snd a) (snd b)) m gs -> Permutation gs gs' -> usum fs' = usum gs').
  { intros m fs fs' gs gs' Hs F1 P1 F2 P2. rewrite <- (usum_perm _ _ P1), <- (usum_perm _ _ P2).
    assert (G1 : Forall (fun f : bytes * pval => (psize (snd f) < psize p)%nat) fs).
    { rewrite Forall_forall. intros f Hf. apply (Permutation_in _ P1) in Hf. exact (Hs _ Hf). }
    pose proof (Forall2_same _ _ _ _ _ F1 F2) as F. clear F1 F2 P1 P2 Hs.
    induction F as [|b c fs gs (a & (E1 & U1) & (E2 & U2)) F IHF]; [reflexivity|]. inversion G1; subst. unfold usum in *. cbn [fold_right].
    rewrite (IHF ltac:(assumption)), (IH (snd b) ltac:(assumption) _ _ U1 U2), <- E1, E2. reflexivity. }
  destruct Hp as [ | | | | | | |l ps HF|l ps loc m fs fs' HA Hn HF HP|l ps HF|loc m fs fs' Hn HF HP|ty loc m fs fs' Hn HF HP|ty]; try (inversion Hq; subst; reflexivity).
  - inversion Hq as [ | | | | | | |? qs HG| | | | |]; subst. cbn [up]. f_equal. pose proof (Forall2_same _ _ _ _ _ HF HG) as F.
    assert (Hs : forall x, In x ps -> (psize x < psize (PArr ps))%nat) by (intros x Hx; apply psize_in in Hx; cbn [psize]; lia).
    revert IH Hs. generalize (psize (PArr ps)) as N. clear - F. intros N IH Hs. induction F as [|b c ps qs (a & U1 & U2) F IHF]; [reflexivity|]. cbn [fold_right].
    rewrite (IH b (Hs b (or_introl eq_refl)) a c U1 U2). rewrite IHF; [reflexivity|]. intros x Hx. apply Hs. right. exact Hx.
  - inversion Hq as [ | | | | | | | | | |? m2 gs gs' Hn2 HG HP2| |]; subst. rewrite Hn in Hn2. injection Hn2 as <-. cbn [up]. f_equal. refine (FS m fs fs' gs gs' _ HF HP HG HP2).
    intros f Hf. apply psize_in_f in Hf. cbn [psize]. lia.
  - inversion Hq as [ | | | | | | | | | | |? ? m2 gs gs' Hn2 HG HP2|]; subst. rewrite Hn in Hn2. injection Hn2 as <-. cbn [up]. f_equal. refine (FS m fs fs' gs gs' _ HF HP HG HP2).
    intros f Hf. apply psize_in_f in Hf. cbn [psize]. lia.
Qed.

(** ** What the tables hold *)
Definition ssum (st : list bytes) : Z := fold_right (fun s n => len s + n) 0 st.
Lemma ssum_app a b : ssum (a ++ b) = ssum a + ssum b.
Proof. unfold ssum. induction a as [|s a IH]; cbn [app fold_right]; lia. Qed.
Lemma ssum_nonneg a : 0 <= ssum a.
Proof. unfold ssum. induction a as [|s a IH]; cbn [fold_right]; [lia|]. pose proof (len_nonneg s). lia. Qed.
Lemma ssum_one s : ssum [s] = len s.
Proof. unfold ssum. cbn [fold_right]. lia. Qed.
Lemma ssum_cons s l : ssum (s :: l) = len s + ssum l.
Proof. reflexivity. Qed.
Lemma ssum_in s st : In s st -> len s <= ssum st.
Proof. unfold ssum. induction st as [|x st IH]; intros []; cbn [fold_right]; [subst x; pose proof (ssum_nonneg st) as Y; unfold ssum in Y; lia|]. specialize (IH H). pose proof (len_nonneg x). lia. Qed.
Definition of_table (st : list bytes) (k : bytes) : Prop := k = [] \/ In k st.
Lemma of_incl st st' k : incl st st' -> of_table st k -> of_table st' k.
Proof. intros I [E|E]; [left; exact E|right; apply I, E]. Qed.
(** Distinct names from the table are no longer than the table. *)
Lemma distinct_sum l : forall st, NoDup l -> (forall k, In k l -> of_table st k) -> ssum l <= ssum st.
Proof.
  induction l as [|k l IH]; intros st N H; [apply ssum_nonneg|]. inversion N as [|? ? N1 N2]; subst. unfold ssum at 1. cbn [fold_right]. fold (ssum l). destruct (H k (or_introl eq_refl)) as [->|K].
  - change (len []) with 0. pose proof (IH st N2 ltac:(intros; apply H; right; assumption)). lia.
  - apply in_split in K. destruct K as (a & b & ->). rewrite ssum_app, ssum_cons. assert (X : ssum l <= ssum (a ++ b)); [|rewrite ssum_app in X; lia].
    apply IH; [exact N2|]. intros x Hx. destruct (H x (or_intror Hx)) as [E|E]; [left; exact E|right]. rewrite in_app_iff in *. destruct E as [E|[E|E]]; [left; exact E|subst x; contradiction|right; exact E].
Qed.
Definition plen (o : option pval) : Z := match o with Some (PStr s) | Some (PBytes s) => len s | _ => 0 end.
Definition psum (l : list (option pval)) : Z := fold_right (fun o n => plen o + n) 0 l.
Lemma plen_nonneg o : 0 <= plen o.
Proof. unfold plen. destruct o as [[]|]; try lia; apply len_nonneg. Qed.
Lemma psum_nonneg l : 0 <= psum l.
Proof. unfold psum. induction l as [|o l IH]; cbn [fold_right]; [lia|]. pose proof (plen_nonneg o). lia. Qed.
Lemma psum_app a b : psum (a ++ b) = psum a + psum b.
Proof. unfold psum. induction a as [|s a IH]; cbn [app fold_right]; lia. Qed.
Lemma psum_one o : psum [o] = plen o.
Proof. unfold psum. cbn [fold_right]. lia. Qed.
Lemma psum_in o l : In o l -> plen o <= psum l.
Proof. unfold psum. induction l as [|x l IH]; intros []; cbn [fold_right]; [subst x; pose proof (psum_nonneg l) as Y; unfold psum in Y; lia|]. specialize (IH H). pose proof (plen_nonneg x). lia. Qed.
Definition tot (W : world) : Z := ssum (t_strings (w_tables W)) + psum (w_places W).
Definition named (T : tables) : Prop := Forall (fun c => Forall (of_table (t_strings T)) (snd c)) (t_classes T).
Definition closed (W : world) : Prop := named (w_tables W) /\ Forall (fun o => match o with Some p => up p <= 10 + plen o | None => True end) (w_places W).
Definition strs (W : world) := t_strings (w_tables W).
Definition grows (W W' : world) (n : Z) : Prop := closed W' /\ incl (strs W) (strs W') /\ tot W <= tot W' <= tot W + n.
Lemma tot_nonneg W : 0 <= tot W.
Proof. unfold tot. pose proof (ssum_nonneg (t_strings (w_tables W))). pose proof (psum_nonneg (w_places W)). lia. Qed.
Lemma grows_trans W1 W2 W3 a b c : grows W1 W2 a -> grows W2 W3 b -> a + b <= c -> grows W1 W3 c.
Proof. intros (C1 & I1 & T1) (C2 & I2 & T2) L. split; [exact C2|]. split; [eapply incl_tran; eassumption|lia]. Qed.
Lemma grows_same W n : closed W -> 0 <= n -> grows W W n.
Proof. intros C H. split; [exact C|]. split; [apply incl_refl|lia]. Qed.
Lemma named_incl T st : named T -> incl (t_strings T) st -> named (with_strings st T).
Proof. intros H I. unfold named in *. cbn [with_strings t_strings t_classes]. eapply Forall_impl; [|exact H]. intros c Hc. eapply Forall_impl; [|exact Hc]. intros k Hk. exact (of_incl _ _ _ I Hk). Qed.
Lemma grows_place W o : closed W -> match o with Some p => up p <= 10 + plen o | None => True end -> grows W (place o W) (plen o).
Proof.
  intros [C1 C2] H. split; [split; [exact C1|apply Forall_app; split; [exact C2|constructor; [exact H|constructor]]]|]. split; [apply incl_refl|]. unfold tot, place. cbn [w_tables w_places]. rewrite psum_app, psum_one. pose proof (plen_nonneg o). lia.
Qed.
Lemma u29_len n b : u29 n b -> 1 <= len b.
Proof. intros H. destruct H; vm_compute; congruence. Qed.
Lemma utf8_grows st b s st' : utf8vr st b s st' -> of_table st' s /\ incl st st' /\ ssum st <= ssum st' <= ssum st + len b /\ 1 <= len b.
Proof.
  intros H. destruct H as [st i s b U N|st b U|st s b _ U]; pose proof (u29_len _ _ U).
  - split; [right; apply (nth_error_In _ _ N)|]. split; [apply incl_refl|lia].
  - split; [left; reflexivity|]. split; [apply incl_refl|lia].
  - split; [right; apply in_or_app; right; left; reflexivity|]. split; [intros x Hx; apply in_or_app; left; exact Hx|]. rewrite ssum_app, len_app, ssum_one. pose proof (len_nonneg s). lia.
Qed.
Lemma utf8s_grows st b ss st' : utf8vrs st b ss st' -> Forall (of_table st') ss /\ incl st st' /\ ssum st <= ssum st' <= ssum st + len b.
Proof.
  induction 1 as [st|st b s st1 bs ss st2 U _ (F & I & L)]; [split; [constructor|]; split; [apply incl_refl|change (len []) with 0; lia]|].
  destruct (utf8_grows _ _ _ _ U) as (F1 & I1 & L1 & _). split; [constructor; [exact (of_incl _ _ _ I F1)|exact F]|]. split; [eapply incl_tran; eassumption|rewrite len_app; lia].
Qed.
Lemma traits_grow T b ty props T1 : traits3 true T b (ty, props) T1 -> named T ->
  named T1 /\ Forall (of_table (t_strings T1)) props /\ incl (t_strings T) (t_strings T1) /\ ssum (t_strings T) <= ssum (t_strings T1) <= ssum (t_strings T) + len b.
Proof.
  intros H N. inversion H as [? i c ? U E|? flags b0 b1 ? st1 b2 ? st2 _ U U1 U2]; subst.
  - split; [exact N|]. split; [unfold named in N; rewrite Forall_forall in N; exact (N _ (nth_error_In _ _ E))|]. split; [apply incl_refl|]. pose proof (len_nonneg b). lia.
  - destruct (utf8_grows _ _ _ _ U1) as (_ & I1 & L1 & _). destruct (utf8s_grows _ _ _ _ U2) as (F2 & I2 & L2). cbn [t_strings t_classes]. pose proof (incl_tran I1 I2) as I.
    split; [|split; [exact F2|]; split; [exact I|]; rewrite !len_app; pose proof (len_nonneg b0); lia].
    unfold named. cbn [t_strings t_classes]. apply Forall_app. split; [exact (named_incl T st2 N I)|]. constructor; [exact F2|constructor].
Qed.

(** ** The members of an object *)
Definition vsum (fs : list (bytes * pval)) : Z := fold_right (fun f n => 4 + up (snd f) + n) 0 fs.
Definition asum (l : list pval) : Z := fold_right (fun p n => 4 + up p + n) 0 l.
Lemma up_nonneg p : 0 <= up p.
Proof.
  induction p as [p IH] using (well_founded_induction (Wf_nat.well_founded_ltof _ psize)). unfold Wf_nat.ltof in IH.
  assert (F : forall fs, (forall f : bytes * pval, In f fs -> psize (snd f) < psize p)%nat -> 0 <= usum fs).
  { unfold usum. intros fs. induction fs as [|f fs IHf]; intros H; cbn [fold_right]; [lia|]. pose proof (IH _ (H f (or_introl eq_refl))). pose proof (len_nonneg (fst f)). specialize (IHf ltac:(intros; apply H; right; assumption)). lia. }
  assert (G : forall l, (forall x, In x l -> psize x < psize p)%nat -> 0 <= fold_right (fun x n => up x + n) 0 l).
  { intros l. induction l as [|x l IHl]; intros H; cbn [fold_right]; [lia|]. pose proof (IH _ (H x (or_introl eq_refl))). specialize (IHl ltac:(intros; apply H; right; assumption)). lia. }
  destruct p as [ |b|b|s|n|sec|s|l|l fs|fs|ty fs]; cbn [up]; try lia; try (pose proof (len_nonneg s); lia).
  - pose proof (G l ltac:(intros x Hx; apply psize_in in Hx; cbn [psize]; lia)). lia.
  - pose proof (F fs ltac:(intros x Hx; apply psize_in_f in Hx; cbn [psize]; lia)) as X. unfold usum in X. lia.
  - pose proof (F fs ltac:(intros x Hx; apply psize_in_f in Hx; cbn [psize]; lia)) as X. unfold usum in X. pose proof (len_nonneg ty). lia.
Qed.
Lemma usum_split fs : usum fs = ssum (map fst fs) + vsum fs.
Proof. unfold usum, ssum, vsum. induction fs as [|f fs IH]; cbn [map fold_right]; lia. Qed.
Lemma put_vsum k p fs : vsum (put k p fs) <= 4 + up p + vsum fs.
Proof.
  unfold vsum. induction fs as [|[k' q] fs IH]; cbn [put fold_right snd]; [lia|]. destruct (bytes_eqb k k'); cbn [fold_right snd]; [pose proof (up_nonneg q); lia|lia].
Qed.
Lemma put_keys k p fs x : In x (map fst (put k p fs)) <-> x = k \/ In x (map fst fs).
Proof.
  induction fs as [|[k' q] fs IH]; cbn [put map fst In]; [intuition congruence|]. destruct (bytes_eqb k k') eqn:E; cbn [map fst In]; [apply bytes_eqb_eq in E; subst k'; intuition congruence|rewrite IH; tauto].
Qed.
Lemma put_distinct k p fs : NoDup (map fst fs) -> NoDup (map fst (put k p fs)).
Proof.
  induction fs as [|[k' q] fs IH]; cbn [put map fst]; intros N; [constructor; [intros []|constructor]|]. destruct (bytes_eqb k k') eqn:E; cbn [map fst]; [exact N|]. inversion N as [|? ? N1 N2]; subst. constructor; [|apply IH, N2].
  rewrite put_keys. intros [->|X]; [|contradiction]. rewrite (proj2 (bytes_eqb_eq k k) eq_refl) in E. discriminate.
Qed.
Lemma members_sum ps : NoDup (map fst (members ps)) /\ (forall k, In k (map fst (members ps)) -> In k (map fst ps)) /\ vsum (members ps) <= vsum ps.
Proof.
  assert (G : forall acc, NoDup (map fst acc) -> let m := fold_left (fun acc p => put (fst p) (snd p) acc) ps acc in
    NoDup (map fst m) /\ (forall k, In k (map fst m) -> In k (map fst ps) \/ In k (map fst acc)) /\ vsum m <= vsum ps + vsum acc).
  { induction ps as [|f ps IH]; intros acc N; cbn [fold_left map]; [split; [exact N|]; split; [intros k Hk; right; exact Hk|unfold vsum at 2; cbn [fold_right]; lia]|].
    destruct (IH (put (fst f) (snd f) acc) (put_distinct _ _ _ N)) as (A & B & C). split; [exact A|]. split.
    - intros k Hk. destruct (B k Hk) as [X|X]; [left; right; exact X|]. apply put_keys in X. destruct X as [->|X]; [left; left; reflexivity|right; exact X].
    - pose proof (put_vsum (fst f) (snd f) acc). unfold vsum at 2. cbn [fold_right]. fold (vsum ps). lia. }
  destruct (G [] ltac:(constructor)) as (A & B & C). split; [exact A|]. split; [intros k Hk; destruct (B k Hk) as [X|[]]; exact X|]. unfold vsum at 3 in C. cbn [fold_right] in C. unfold members. lia.
Qed.
Lemma combine_sum (props : list bytes) vs : length vs = length props -> vsum (combine props vs) = asum vs.
Proof. revert vs. unfold vsum, asum. induction props as [|k props IH]; intros [|v vs] H; cbn [length combine fold_right snd] in *; try lia. rewrite IH by lia. reflexivity. Qed.
Lemma combine_keys (props : list bytes) (vs : list pval) k : In k (map fst (combine props vs)) -> In k props.
Proof. intros H. apply in_map_iff in H. destruct H as ([a b] & <- & H). apply in_combine_l in H. exact H. Qed.

Lemma value_grows :
  (forall W b c p W', value3r Library W b c p W' -> closed W -> grows W W' (len b) /\ 1 <= len b /\ up p + 4 <= (tot W' + 10) * len b) /\
  (forall W b c ps W', values3r Library W b c ps W' -> closed W -> grows W W' (len b) /\ asum ps <= (tot W' + 10) * len b) /\
  (forall W b fs W', assoc3r Library W b fs W' -> closed W -> grows W W' (len b)).
Proof.
  assert (S1 : forall W (b : bytes) n, closed W -> 1 <= len b -> n + 4 <= 10 * len b -> grows W W (len b) /\ 1 <= len b /\ n + 4 <= (tot W + 10) * len b).
  { intros W b n C L N. split; [apply grows_same; [exact C|lia]|]. split; [exact L|]. pose proof (tot_nonneg W). nia. }
  assert (EN : forall W (b s : bytes) p, closed W -> plen (Some p) = len s -> up p = 5 + len s -> 2 + len s <= len b -> grows W (entered Library s p W) (len b) /\ 1 <= len b /\ up p + 4 <= (tot (entered Library s p W) + 10) * len b).
  { intros W b s p C L U B. pose proof (len_nonneg s). destruct s as [|x s].
    - cbn [entered]. apply S1; [exact C|lia|]. rewrite U. change (len []) with 0 in *. lia.
    - cbn [entered]. destruct (grows_place W (Some p) C ltac:(cbn beta iota; lia)) as (G1 & G2 & G3). rewrite L in G3. split; [split; [exact G1|]; split; [exact G2|lia]|]. split; [lia|]. rewrite U.
      assert (len (x :: s) <= tot (place (Some p) W)) by (unfold tot, place; cbn [w_tables w_places]; rewrite psum_app, psum_one; rewrite L; pose proof (ssum_nonneg (t_strings (w_tables W))); pose proof (psum_nonneg (w_places W)); lia). nia. }
  apply value3r_mutind.
  - intros W C. apply S1; [exact C| |]; vm_compute; congruence.
  - intros W C. apply S1; [exact C| |]; vm_compute; congruence.
  - intros W C. apply S1; [exact C| |]; vm_compute; congruence.
  - intros W C. apply S1; [exact C| |]; vm_compute; congruence.
  - intros W n b _ U C. pose proof (u29_len _ _ U). apply S1; [exact C| |]; rewrite len_cons; cbn [up]; lia.
  - intros W bits _ C. apply S1; [exact C| |]; rewrite len_cons, len_be64; cbn [up]; lia.
  - intros W b s st U [C1 C2]. destruct (utf8_grows _ _ _ _ U) as (O & I & L & B). rewrite len_cons.
    assert (T : tot (with_tables (with_strings st (w_tables W)) W) = ssum st + psum (w_places W)) by reflexivity. pose proof (psum_nonneg (w_places W)) as PN.
    split; [split; [split; [apply named_incl; assumption|exact C2]|split; [exact I|rewrite T; unfold tot; lia]]|]. split; [lia|]. rewrite T. cbn [up].
    assert (len s <= ssum st) by (destruct O as [->|O]; [apply ssum_nonneg|apply ssum_in, O]). pose proof (len_nonneg s). nia.
  - intros W m b s c _ U _ C. pose proof (u29_len _ _ U). apply EN; [exact C|reflexivity|reflexivity|rewrite len_cons, len_app; lia].
  - intros W k b bits p U _ -> C. pose proof (u29_len _ _ U). set (t := f64_to_i64 (f64_div_c bits 1000)). destruct (grows_place W (Some (PTime t)) C ltac:(cbn; lia)) as (G1 & G2 & G3). change (plen (Some (PTime t))) with 0 in G3. rewrite len_cons, len_app, len_be64.
    split; [split; [exact G1|]; split; [exact G2|lia]|]. split; [lia|]. cbn [up]. pose proof (tot_nonneg (place (Some (PTime t)) W)). nia.
  - intros W b bk assoc W1 bd c dense W2 p U -> _ IH1 _ IH2 C. pose proof (u29_len _ _ U) as LU. cbn [completed begun] in *. pose proof (grows_place W (Some (PEcma [] [])) C ltac:(cbn; lia)) as G0. change (plen (Some (PEcma [] []))) with 0 in G0.
    pose proof (IH1 (proj1 G0)) as G1. destruct (IH2 (proj1 G1)) as [G2 _]. rewrite len_cons, !len_app. pose proof (len_nonneg bk). pose proof (len_nonneg bd).
    split; [eapply grows_trans; [exact G0|eapply grows_trans; [exact G1|exact G2|reflexivity]|lia]|]. split; [lia|]. cbn [up]. pose proof (tot_nonneg W2). nia.
  - intros W b ty props T1 bv c vs W2 p HT -> _ IH HL [C1 C2]. cbn [completed begun] in *. destruct (traits_grow _ _ _ _ _ HT C1) as (N1 & F & I & L).
    assert (G0 : grows W (with_tables T1 W) (len b)).
    { split; [split; [exact N1|exact C2]|]. split; [exact I|]. unfold tot, with_tables. cbn [w_tables w_places]. lia. }
    pose proof (grows_place (with_tables T1 W) (Some PNil) (proj1 G0) ltac:(cbn; lia)) as G1. change (plen (Some PNil)) with 0 in G1. destruct (IH (proj1 G1)) as [G2 A]. rewrite len_cons, !len_app. pose proof (len_nonneg b). pose proof (len_nonneg bv).
    split; [eapply grows_trans; [exact G0|eapply grows_trans; [exact G1|exact G2|reflexivity]|lia]|]. split; [lia|].
    destruct (members_sum (combine props vs)) as (M1 & M2 & M3). rewrite (combine_sum props vs HL) in M3. change (up (PObj (members (combine props vs)))) with (6 + usum (members (combine props vs))). rewrite usum_split.
    assert (K : ssum (map fst (members (combine props vs))) <= tot W2).
    { unfold tot. pose proof (psum_nonneg (w_places W2)). assert (X : ssum (map fst (members (combine props vs))) <= ssum (t_strings (w_tables W2))); [|lia]. apply distinct_sum; [exact M1|]. intros k Hk. apply M2, combine_keys in Hk. rewrite Forall_forall in F. specialize (F _ Hk).
      apply (of_incl (t_strings T1)); [|exact F]. destruct G2 as (_ & I2 & _). exact I2. }
    pose proof (tot_nonneg W2). nia.
  - intros W b s c U _ C. pose proof (u29_len _ _ U). apply EN; [exact C|reflexivity|reflexivity|rewrite len_cons, len_app; lia].
  - intros W m i b p U E _ C. pose proof (u29_len _ _ U). rewrite len_cons. split; [apply grows_same; [exact C|lia]|]. split; [lia|]. apply nth_error_In in E. destruct C as [_ C]. rewrite Forall_forall in C. pose proof (C _ E) as X. cbn beta iota in X. pose proof (psum_in _ _ E).
    assert (plen (Some p) <= tot W) by (unfold tot; pose proof (ssum_nonneg (t_strings (w_tables W))); lia). pose proof (tot_nonneg W). nia.
  - intros W C. change (len (@nil Z)) with 0. split; [apply grows_same; [exact C|apply Z.le_refl]|]. rewrite Z.mul_0_r. apply Z.le_refl.
  - intros W b c1 p W1 bs c2 ps W2 _ IH1 _ IH2 _ C. destruct (IH1 C) as (G1 & B1 & U1). destruct (IH2 (proj1 G1)) as [G2 U2]. rewrite len_app. split; [eapply grows_trans; [exact G1|exact G2|lia]|]. unfold asum. cbn [fold_right]. fold (asum ps).
    destruct G2 as (_ & _ & G2). nia.
  - intros W b st U [C1 C2]. destruct (utf8_grows _ _ _ _ U) as (O & I & L & B). split; [split; [apply named_incl; assumption|exact C2]|]. split; [exact I|]. unfold tot, with_tables. cbn [w_tables w_places with_strings t_strings]. lia.
  - intros W bk k st bv p W1 bs fs W2 U _ _ IH1 _ IH2 [C1 C2]. destruct (utf8_grows _ _ _ _ U) as (O & I & L & B). rewrite !len_app.
    assert (G0 : grows W (with_tables (with_strings st (w_tables W)) W) (len bk)) by (split; [split; [apply named_incl; assumption|exact C2]|]; split; [exact I|]; unfold tot, with_tables; cbn [w_tables w_places with_strings t_strings]; lia).
    destruct (IH1 (proj1 G0)) as (G1 & _). pose proof (IH2 (proj1 G1)) as G2. eapply grows_trans; [exact G0|eapply grows_trans; [exact G1|exact G2|reflexivity]|lia].
Qed.
