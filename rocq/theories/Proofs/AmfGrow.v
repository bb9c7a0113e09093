(** Proofs about how long the encoding of a decoded AMF0 value is. *)
From Coq Require Import String Permutation.
From Verif Require Import Base.Go Base.GoFacts Base.IO Model.AmfTypes Spec.Amf Spec.AmfDoc Spec.AmfAgain Spec.AmfVal Spec.AmfGrow
  Proofs.AmfFacts Proofs.Amf0Doc Proofs.AmfHeap Proofs.AmfVal Proofs.Amf0Spec Proofs.AmfAgain.
Import ListNotations.
Local Open Scope list_scope.
Local Open Scope Z_scope.

Definition wsize (p : pval) : Z := len (wire0 (go_value p)).
Fixpoint fsize (fs : list (bytes * pval)) : Z := match fs with [] => 0 | f :: fs' => 2 + len (fst f) + wsize (snd f) + fsize fs' end.
Fixpoint asize (l : list pval) : Z := match l with [] => 0 | p :: l' => wsize p + asize l' end.
Lemma len_utf8 s : len (wire_utf8 s) = 2 + len s.
Proof. unfold wire_utf8. rewrite len_app, len_be16. reflexivity. Qed.
Lemma fsize_eq fs : len (concat (map (fun p : bytes * tree => wire_utf8 (fst p) ++ wire0 (snd p)) (map (fun f => (fst f, go_value (snd f))) fs))) = fsize fs.
Proof.
  induction fs as [|f fs IH]; [reflexivity|]. cbn [map concat fsize fst snd]. rewrite !len_app, IH, len_utf8. unfold wsize. lia.
Qed.
Lemma asize_eq l : len (concat (map wire0 (map go_value l))) = asize l.
Proof. induction l as [|p l IH]; [reflexivity|]. cbn [map concat asize]. rewrite len_app, IH. reflexivity. Qed.
Lemma wsize_obj fs : wsize (PObj fs) = 4 + fsize fs.
Proof. unfold wsize. cbn [go_value wire0]. rewrite len_cons, len_app, fsize_eq. change (len [0; 0; 9]) with 3. lia. Qed.
Lemma wsize_typed ty fs : wsize (PTyped ty fs) = 6 + len ty + fsize fs.
Proof. unfold wsize. cbn [go_value wire0]. rewrite len_cons, !len_app, fsize_eq, len_utf8. change (len [0; 0; 9]) with 3. lia. Qed.
Lemma wsize_arr l : wsize (PArr l) = 5 + asize l.
Proof. unfold wsize. cbn [go_value wire0]. rewrite len_cons, len_app, asize_eq, len_be32. lia. Qed.
Lemma wsize_nonneg p : 0 <= wsize p.
Proof. apply len_nonneg. Qed.
Lemma fsize_perm fs gs : Permutation fs gs -> fsize fs = fsize gs.
Proof. induction 1; cbn [fsize]; lia. Qed.

(** The order of the members does not matter. *)
Lemma wsize_order h p : forall v q, unfolds h v p -> unfolds h v q -> wsize p = wsize q.
Proof.
  induction p as [p IH] using (well_founded_induction (Wf_nat.well_founded_ltof _ psize)). unfold Wf_nat.ltof in IH. intros v q Hp Hq.
  assert (FS : forall m fs fs' gs gs', (forall f, In f fs' -> psize (snd f) < psize p)%nat ->
    Forall2 (fun a b => fst a = fst b /\ unfolds h (snd a) (snd b)) m fs -> Permutation fs fs' ->
    Forall2 (fun a b => fst a = fst b /\ unfolds h (snd a) (snd b)) m gs -> Permutation gs gs' -> fsize fs' = fsize gs').
  { intros m fs fs' gs gs' Hs F1 P1 F2 P2. rewrite <- (fsize_perm _ _ P1), <- (fsize_perm _ _ P2).
    assert (G1 : Forall (fun f : bytes * pval => (psize (snd f) < psize p)%nat) fs).
    { rewrite Forall_forall. intros f Hf. apply (Permutation_in _ P1) in Hf. exact (Hs _ Hf). }
    pose proof (Forall2_same _ _ _ _ _ F1 F2) as F. clear F1 F2 P1 P2 Hs.
    induction F as [|b c fs gs (a & (E1 & U1) & (E2 & U2)) F IHF]; [reflexivity|]. inversion G1; subst. cbn [fsize].
    rewrite (IHF ltac:(assumption)), (IH (snd b) ltac:(assumption) _ _ U1 U2), <- E1, E2. reflexivity. }
  destruct Hp as [ | | | | | | |l ps HF|l ps loc m fs fs' HA Hn HF HP|l ps HF|loc m fs fs' Hn HF HP|ty loc m fs fs' Hn HF HP|ty]; try (inversion Hq; subst; reflexivity).
  - inversion Hq as [ | | | | | | |? qs HG| | | | |]; subst. rewrite !wsize_arr. f_equal. pose proof (Forall2_same _ _ _ _ _ HF HG) as F.
    assert (Hs : forall x, In x ps -> (psize x < psize (PArr ps))%nat) by (intros x Hx; apply psize_in in Hx; cbn [psize]; lia).
    revert IH Hs. generalize (psize (PArr ps)) as N. clear - F. intros N IH Hs. induction F as [|b c ps qs (a & U1 & U2) F IHF]; [reflexivity|]. cbn [asize].
    rewrite (IH b (Hs b (or_introl eq_refl)) a c U1 U2). rewrite IHF; [reflexivity|]. intros x Hx. apply Hs. right. exact Hx.
  - inversion Hq as [ | | | | | | | | | |? m2 gs gs' Hn2 HG HP2| |]; subst. rewrite Hn in Hn2. injection Hn2 as <-. rewrite !wsize_obj. f_equal. refine (FS m fs fs' gs gs' _ HF HP HG HP2).
    intros f Hf. apply psize_in_f in Hf. cbn [psize]. lia.
  - inversion Hq as [ | | | | | | | | | | |? ? m2 gs gs' Hn2 HG HP2|]; subst. rewrite Hn in Hn2. injection Hn2 as <-. rewrite !wsize_typed. f_equal. refine (FS m fs fs' gs gs' _ HF HP HG HP2).
    intros f Hf. apply psize_in_f in Hf. cbn [psize]. lia.
Qed.

(** Dropping the members that are replaced makes it shorter. *)
Lemma fsize_put k p fs : fsize (put k p fs) <= 2 + len k + wsize p + fsize fs.
Proof.
  induction fs as [|[k' p'] fs IH]; cbn [put fsize fst snd]; [lia|]. destruct (bytes_eqb k k') eqn:E; cbn [fsize fst snd].
  - apply bytes_eqb_eq in E. subst k'. pose proof (wsize_nonneg p'). pose proof (len_nonneg k). lia.
  - lia.
Qed.
Lemma fsize_fold ps : forall acc, fsize (fold_left (fun acc p => put (fst p) (snd p) acc) ps acc) <= fsize acc + fsize ps.
Proof.
  induction ps as [|f ps IH]; intros acc; cbn [fold_left fsize]; [lia|]. pose proof (IH (put (fst f) (snd f) acc)) as X. pose proof (fsize_put (fst f) (snd f) acc). lia.
Qed.
Lemma fsize_members ps : fsize (members ps) <= fsize ps.
Proof. unfold members. pose proof (fsize_fold ps []) as X. cbn [fsize] in X. lia. Qed.

Lemma plain_fields fs tail :
  Forall (fun f : bytes * doc0 => doc_ok true (snd f) -> plain (snd f) -> is_bytes (layout0 (snd f)) -> ok0 (go_value (read0 (snd f))) /\ wsize (read0 (snd f)) <= len (layout0 (snd f))) fs ->
  all_of (map (fun p : bytes * doc0 => 0 < len (fst p) <= 65535 /\ doc_ok true (snd p)) fs) -> all_of (map (fun p : bytes * doc0 => plain (snd p)) fs) ->
  is_bytes (concat (map (fun p => wire_utf8 (fst p) ++ layout0 (snd p)) fs) ++ tail) ->
  let ps := map (fun p => (fst p, read0 (snd p))) fs in
  good_fields (members ps) /\ fsize (members ps) <= len (concat (map (fun p => wire_utf8 (fst p) ++ layout0 (snd p)) fs)).
Proof.
  intros IH HO HP HB ps. apply is_bytes_app in HB. destruct HB as [HB _].
  assert (X : Forall (fun f => (is_bytes (fst f) /\ 0 < len (fst f) <= 65535) /\ ok0 (go_value (snd f))) ps /\ fsize ps <= len (concat (map (fun p => wire_utf8 (fst p) ++ layout0 (snd p)) fs))).
  { subst ps. induction IH as [|f fs H1 _ IHf]; [split; [apply Forall_nil|vm_compute; congruence]|]. cbn [map all_of concat] in *. destruct HO as [[K O] HO]. destruct HP as [Pl HP]. apply is_bytes_app in HB. destruct HB as [B1 HB].
    apply is_bytes_app in B1. destruct B1 as [Bk B1]. destruct (IHf HO HP HB) as [G1 G2]. destruct (H1 O Pl B1) as [O1 L1]. unfold wire_utf8 in Bk. apply is_bytes_app in Bk. split.
    - constructor; [|exact G1]. cbn [fst snd]. split; [split; [apply Bk|exact K]|exact O1].
    - cbn [fsize fst snd]. rewrite !len_app, len_utf8. lia. }
  destruct X as [X1 X2]. split; [apply members_good, X1|]. pose proof (fsize_members ps). lia.
Qed.
Lemma plain_small t : doc_ok true t -> plain t -> is_bytes (layout0 t) -> ok0 (go_value (read0 t)) /\ wsize (read0 t) <= len (layout0 t).
Proof.
  induction t as [b|b|s|fs IH| | |i|s|n fs IH|l IH|b z|s| |s|ty fs IH] using doc0_ind'; intros HO HP HB;
    try (split; [apply simple_good; [exact I|exact HO|exact HB]|]); try exact (False_ind _ HP);
    unfold wsize; cbn [read0 meaning0 go_value wire0 layout0 doc_ok] in *; try (rewrite ?len_cons, ?len_app, ?len_be64, ?len_be16; change (len (@nil Z)) with 0; lia).
  - destruct (Z.leb_spec (len s) 65535); [reflexivity|lia].
  - cbn [plain] in HP. apply is_bytes_cons in HB. destruct (plain_fields fs [0; 0; 9] IH HO HP HB) as [X1 X2].
    split; [apply (proj2 (ok_obj _)), X1|]. rewrite !len_cons, !len_app, fsize_eq, ?len_be32. change (len [0; 0; 9]) with 3. lia.
  - cbn [plain] in HP. destruct HO as [_ HO]. apply is_bytes_cons in HB. apply is_bytes_app in HB. destruct HB as [_ HB]. destruct (plain_fields fs [0; 0; 9] IH HO HP HB) as [X1 X2].
    split; [apply (proj2 (ok_obj _)), X1|]. rewrite !len_cons, !len_app, fsize_eq, ?len_be32. change (len [0; 0; 9]) with 3. lia.
  - cbn [plain] in HP. destruct HO as [HL HO]. apply is_bytes_cons in HB. apply is_bytes_app in HB. destruct HB as [_ HB].
    assert (X : Forall (fun p => ok0 (go_value p)) (map read0 l) /\ asize (map read0 l) <= len (concat (map layout0 l))).
    { clear HL. induction IH as [|t l H1 _ IHl]; [split; [apply Forall_nil|vm_compute; congruence]|]. cbn [map all_of concat] in *. destruct HO as [O HO]. destruct HP as [Pl HP]. apply is_bytes_app in HB. destruct HB as [B1 HB].
      destruct (IHl HO HP HB) as [G1 G2]. destruct (H1 O Pl B1) as [O1 L1]. split; [constructor; assumption|]. cbn [asize]. rewrite len_app. lia. }
    destruct X as [X1 X2]. split; [apply (proj2 (ok_arr _)); split; [unfold len in *; rewrite map_length; exact HL|exact X1]|]. rewrite !len_cons, !len_app, !len_be32, asize_eq. lia.
  - unfold wire_utf8_long. destruct (Z.leb_spec (len s) 65535); rewrite !len_cons; [rewrite len_utf8|unfold wire_utf8_long]; rewrite ?len_app, len_be32; lia.
  - unfold wire_utf8_long. destruct (Z.leb_spec (len s) 65535); rewrite !len_cons; [rewrite len_utf8|unfold wire_utf8_long]; rewrite ?len_app, len_be32; lia.
  - cbn [plain] in HP. destruct HO as [HL HO]. apply is_bytes_cons in HB. apply is_bytes_app in HB. destruct HB as [HT HB]. apply is_bytes_app in HT. destruct HT as [_ HT].
    destruct (plain_fields fs [0; 0; 9] IH HO HP HB) as [X1 X2].
    split; [apply (proj2 (ok_typed _ _)); split; [exact HT|]; split; [exact HL|exact X1]|]. rewrite !len_cons, !len_app, fsize_eq, len_utf8. change (len [0; 0; 9]) with 3. lia.
Qed.

(** The document that doubles. *)
Lemma doubled_length n i : len (layout0 (doubled n i)) = 13 * Z.of_nat n + 4.
Proof.
  revert i. induction n as [|n IH]; intros i; [reflexivity|]. cbn [doubled layout0 map concat fst snd]. rewrite len_cons, !len_app, !len_utf8, IH, len_cons, len_be16.
  change (len (str "a")) with 1. change (len (str "b")) with 1. change (len [0; 0; 9]) with 3. change (len (@nil Z)) with 0. lia.
Qed.
Lemma doubled_bytes n i : 0 <= i -> i + Z.of_nat n < 65536 -> is_bytes (layout0 (doubled n i)).
Proof.
  revert i. induction n as [|n IH]; intros i Hi Hn; [repeat constructor; lia|]. cbn [doubled layout0 map concat fst snd].
  assert (B : forall b l, 0 <= b < 256 -> is_bytes l -> is_bytes (b :: l)) by (intros; constructor; assumption).
  apply B; [lia|]. apply is_bytes_app. split; [|repeat (apply B; [lia|]); constructor]. apply is_bytes_app. split; [apply is_bytes_app; split; [|apply IH; lia]|].
  - vm_compute. repeat (apply B; [lia|]). constructor.
  - rewrite app_nil_r. apply is_bytes_app. split; [vm_compute; repeat (apply B; [lia|]); constructor|]. apply B; [lia|]. apply is_bytes_be16.
Qed.
Lemma doubled_ok n i : 0 <= i -> i + Z.of_nat n < 65536 -> doc_ok true (doubled n i) /\ no_avm (doubled n i) /\ doc_ends_empty (doubled n i) = false.
Proof.
  revert i. induction n as [|n IH]; intros i Hi Hn; [repeat split|]. destruct (IH (i + 1)) as (A & B & C); [lia|lia|]. cbn [doubled doc_ok no_avm doc_ends_empty map all_of fst snd].
  change (len (str "a")) with 1. change (len (str "b")) with 1. repeat split; try exact A; try exact B; lia.
Qed.
Lemma doubled_deref n : forall env, exists env', deref true env (doubled n (len env)) = Some (doubled_value n, env') /\ nth_error env' (length env) = Some (Some (doubled_value n)).
Proof.
  assert (C : forall k p env, (k <= length env)%nat -> nth_error (complete k p env) k = Some (Some p)).
  { intros k p env H. unfold complete. rewrite nth_error_app2; rewrite firstn_length_le by exact H; [|lia]. rewrite Nat.sub_diag. reflexivity. }
  induction n as [|n IH]; intros env; cbn [doubled doubled_value deref].
  - eexists. split; [reflexivity|]. apply C. rewrite app_length. cbn [length]. lia.
  - destruct (IH (env ++ [None])) as (env1 & E & N). rewrite len_app in E. change (len [None]) with 1 in E. rewrite E. rewrite app_length in N. cbn [length] in N.
    replace (Z.to_nat (len env + 1)) with (length env + 1)%nat by (unfold len; lia). rewrite N. eexists. split; [reflexivity|]. apply C.
    assert (length env + 1 < length env1)%nat by (apply nth_error_Some; congruence). lia.
Qed.
Lemma doubled_wsize n : wsize (doubled_value n) = 14 * 2 ^ Z.of_nat n - 10.
Proof.
  induction n as [|n IH]; [reflexivity|]. cbn [doubled_value]. rewrite wsize_obj. cbn [fsize fst snd]. rewrite IH. change (len (str "a")) with 1. change (len (str "b")) with 1. rewrite Nat2Z.inj_succ, Z.pow_succ_r by lia. lia.
Qed.
Lemma doubled_good n : ok0 (go_value (doubled_value n)).
Proof.
  assert (B : forall b l, 0 <= b < 256 -> is_bytes l -> is_bytes (b :: l)) by (intros; constructor; assumption).
  induction n as [|n IH]; cbn [doubled_value]; apply ok_obj; split.
  - constructor.
  - constructor.
  - cbn [map fst]. constructor; [intros [K|[]]; discriminate K|]. constructor; [intros []|constructor].
  - constructor; [|constructor; [|constructor]]; cbn [fst snd]; (split; [split; [vm_compute; repeat (apply B; [lia|]); constructor|vm_compute; split; congruence]|exact IH]).
Qed.
