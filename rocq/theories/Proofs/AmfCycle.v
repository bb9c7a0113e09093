(** AMF0: a reference to an enclosing map makes the value infinite. *)
From Coq Require Import Permutation.
From Verif Require Import Base.Go Base.GoFacts Base.IO Base.Float64 Proofs.IOFacts Proofs.Float64 Model.AmfTypes Model.Amf3 Model.Amf0 Spec.Amf Spec.AmfDoc Spec.Amf3Doc Spec.Amf3Ref Spec.AmfAll Spec.AmfVal
  Proofs.AmfFacts Proofs.AmfContr Proofs.AmfKeep Proofs.Amf0Enc Proofs.Amf0RT Proofs.Amf0Doc Proofs.Amf0Acc Proofs.Amf0Panic Proofs.AmfTame Proofs.AmfHeap Proofs.Amf3Ref Proofs.AmfAll Proofs.Amf0Ref Proofs.AmfVal.
Local Ltac Zify.zify_post_hook ::= Z.div_mod_to_equations.

(** No tree of fewer than k nodes. *)
Definition badn (k : nat) (H : list omap) (v : value) : Prop := forall p, (psize p < k)%nat -> ~ unfolds H v p.
Lemma badn_le j k H v : (j <= k)%nat -> badn k H v -> badn j H v.
Proof. intros L B p Hp. apply B. lia. Qed.
Lemma member_of H (m : omap) (fs : list (bytes * pval)) key v : Forall2 (fun a b => fst a = fst b /\ unfolds H (snd a) (snd b)) m fs -> In (key, v) m -> exists q, In (key, q) fs /\ unfolds H v q.
Proof.
  intros F. induction F as [|a b m fs [E1 E2] F IH]; [intros []|]; intros [X|X]; [subst a; destruct b as [k q]; cbn [fst snd] in *; subst k; exists q; split; [left; reflexivity|exact E2]|].
  destruct (IH X) as (q & Q1 & Q2). exists q. split; [right; exact Q1|exact Q2].
Qed.
Lemma bad_obj k (H : list omap) loc (m : omap) key v : nth_error H loc = Some m -> In (key, v) m -> badn k H v -> badn (S k) H (VObj loc).
Proof.
  intros Hm Hi B p Hp U. inversion U as [| | | | | | | | | |loc0 m0 fs fs' N F P E1 E2| |]. clear U. subst. rewrite Hm in N. injection N as <-.
  destruct (member_of _ _ _ _ _ F Hi) as (q & Q1 & Q2). apply (Permutation_in _ P) in Q1. apply psize_in_f in Q1. cbn [snd psize] in *. apply (B q); [lia|exact Q2].
Qed.
Lemma bad_typed k (H : list omap) ty loc (m : omap) key v : nth_error H loc = Some m -> In (key, v) m -> badn k H v -> badn (S k) H (VTyped ty (Some loc)).
Proof.
  intros Hm Hi B p Hp U. inversion U as [| | | | | | | | | | |ty0 loc0 m0 fs fs' N F P E1 E2|]. clear U. subst. rewrite Hm in N. injection N as <-.
  destruct (member_of _ _ _ _ _ F Hi) as (q & Q1 & Q2). apply (Permutation_in _ P) in Q1. apply psize_in_f in Q1. cbn [snd psize] in *. apply (B q); [lia|exact Q2].
Qed.
Lemma bad_arr k H vs v : In v vs -> badn k H v -> badn (S k) H (VArr vs).
Proof.
  intros Hi B p Hp U. inversion U as [| | | | | | |l ps F| | | | |]; subst. clear U. assert (X : exists q, In q ps /\ unfolds H v q).
  { clear Hp. induction F as [|a b vs ps U F IH]; [destruct Hi|]; destruct Hi as [Hi|Hi]; [subst a; exists b; split; [left; reflexivity|exact U]|]. destruct (IH Hi) as (q & Q1 & Q2). exists q. split; [right; exact Q1|exact Q2]. }
  destruct X as (q & Q1 & Q2). apply psize_in in Q1. cbn [psize] in Hp. apply (B q); [lia|exact Q2].
Qed.

Lemma set_in k v m : In (k, v) (map_set k v m).
Proof. induction m as [|[k' v'] m IH]; cbn [map_set]; [left; reflexivity|]. destruct (bytes_eqb k k') eqn:E; [apply bytes_eqb_eq in E; subst; left; reflexivity|right; exact IH]. Qed.
Lemma set_other k v m k1 v1 : k1 <> k -> In (k1, v1) m -> In (k1, v1) (map_set k v m).
Proof.
  intros Hk. induction m as [|[k' v'] m IH]; [intros []|]; intros [X|X]; cbn [map_set]; destruct (bytes_eqb k k') eqn:E.
  - apply bytes_eqb_eq in E. injection X as <- <-. congruence.
  - left. exact X.
  - right. exact X.
  - right. apply IH, X.
Qed.
Lemma upd_same {A} (f : A -> A) : forall h n x, nth_error h n = Some x -> nth_error (upd_nth n f h) n = Some (f x).
Proof. induction h as [|y h IH]; intros [|n] x E; cbn [upd_nth nth_error] in *; try discriminate; [injection E as ->; reflexivity|apply IH, E]. Qed.
Lemma dec0_heap fuel d d' v : dec0 fuel d = (d', Ok v) -> extends (d_heap d) (d_heap d').
Proof.
  intros E. destruct (keeps_dec0 (length (d_heap d)) fuel d (le_n _)) as (_ & H & _). rewrite E in H. cbn [fst] in H. rewrite firstn_all in H. exists (skipn (length (d_heap d)) (d_heap d')). rewrite <- H at 1. rewrite firstn_skipn. reflexivity.
Qed.
Lemma dec0_tab fuel d d' v : dec0 fuel d = (d', Ok v) -> extends (d_ref0 d) (d_ref0 d').
Proof. intros E. destruct (tame_dec0 fuel d) as [(H & _) _]. rewrite E in H. exact H. Qed.

(** Each place in up holds a map whose location is in opn. *)
Definition ups (up : list Z) (opn : list nat) (tab : list value) : Prop := forall i, In i up -> exists L, In L opn /\ nth_error tab (Z.to_nat i) = Some (VObj L).
Lemma ups_more up opn tab tab' : extends tab tab' -> ups up opn tab -> ups up opn tab'.
Proof. intros X U i Hi. destruct (U i Hi) as (L & A & B). exists L. split; [exact A|]. exact (extends_nth _ _ _ _ X B). Qed.

Definition RC (t : doc0) : Prop := doc_ok true t -> distinct_names t -> forall fuel d s c W W' rest e d' v, refs_in (rlen d) t -> embedded t W c W' -> relw W d -> (length (layout0 t) < fuel + c)%nat ->
  s ++ repeat 0 c = layout0 t ++ rest -> c = 0%nat \/ rest = [] -> d_r d = contr s e -> doc_end rest e t -> dec0 fuel d = (d', Ok v) ->
  forall up opn, ups up opn (d_ref0 d) -> below opn (length (d_heap d)) -> refers_up up (rlen d) t = true ->
  forall H k, agree_but opn (d_heap d') H -> (forall L, In L opn -> badn k H (VObj L)) -> badn k H v.

Lemma cycle_fields fs : Forall (fun p => RC (snd p)) fs -> Forall fok fs -> NoDup (map fst fs) -> Forall (fun p => distinct_names (snd p)) fs ->
  forall fuel k loc d W W' rest e d' m, frefs (rlen d) fs -> chain (femb fs) W 0 W' -> relw W d -> (length (layout_fields fs) < fuel)%nat -> d_r d = contr (layout_fields fs ++ [0; 0; 9] ++ rest) e ->
  obj_loop (dec0 fuel) k loc d = (d', Ok tt) -> nth_error (d_heap d) loc = Some m ->
  exists m', nth_error (d_heap d') loc = Some m' /\ (length (d_heap d) <= length (d_heap d'))%nat /\ agree_but [loc] (d_heap d) (d_heap d') /\
    (forall key v, In (key, v) m -> ~ In key (map fst fs) -> In (key, v) m') /\
    (forall up opn, In loc opn -> ups up opn (d_ref0 d) -> below opn (length (d_heap d)) -> ufields up (rlen d) fs = true ->
     forall H j, agree_but opn (d_heap d') H -> (forall L, In L opn -> badn j H (VObj L)) -> exists key v, In (key, v) m' /\ badn j H v).
Proof.
  induction fs as [|[key t] fs IH]; intros HR Hok HN HD fuel k loc d W W' rest e d' m HF HC HW Hf Hr E Hm.
  - destruct k as [|k]; [discriminate E|]. assert (E2 : obj_loop (dec0 fuel) (S k) loc d = (set_r (contr rest e) d, Ok tt)) by (apply obj_loop_end; [lia|exact Hr]). rewrite E2 in E. injection E as <-. cbn [set_r d_heap].
    exists m. split; [exact Hm|]. split; [lia|]. split; [intros i _ _; reflexivity|]. split; [intros; assumption|]. intros up opn _ _ _ X. discriminate X.
  - inversion HR as [|? ? HR1 HR2]; inversion Hok as [|? ? [Hkl Hot] Hol]; inversion HN as [|? ? HN1 HN2]; inversion HD as [|? ? HD1 HD2]; subst. cbn [fst snd map] in *. destruct HF as [HF1 HF2].
    destruct k as [|k]; [discriminate E|]. cbn [map chain snd] in HC. destruct HC as (c1 & W1 & c2 & C1 & C2 & EC & _). assert (c1 = 0%nat /\ c2 = 0%nat) as [-> ->] by lia.
    unfold layout_fields in Hf, Hr. cbn [map concat fst snd] in Hf, Hr. fold (layout_fields fs) in Hf, Hr. rewrite <- !app_assoc in Hr. rewrite !app_length in Hf.
    assert (Hkne : key <> []) by (intros ->; unfold len in Hkl; cbn [length] in Hkl; lia).
    set (d0 := set_r (contr (layout0 t ++ layout_fields fs ++ [0; 0; 9] ++ rest) e) d).
    assert (Es : decode_string0 d = (d0, Ok key)) by (unfold d0; apply decode_string0_contr; [exact Hr|lia|left; exact Hkne]).
    assert (HS : doc_end (layout_fields fs ++ [0; 0; 9] ++ rest) e t) by (left; intros X; apply app_eq_nil in X; destruct X as [_ X]; discriminate X).
    destruct (dec0_refsw t Hot fuel d0 (layout0 t ++ layout_fields fs ++ [0; 0; 9] ++ rest) 0%nat W W1 (layout_fields fs ++ [0; 0; 9] ++ rest) e HF1 C1 HW ltac:(lia) (app_nil_r _) ltac:(left; reflexivity) eq_refl HS) as (d1 & v & E1 & R1 & T1 & HW1).
    pose proof (HR1 Hot HD1 fuel d0 (layout0 t ++ layout_fields fs ++ [0; 0; 9] ++ rest) 0%nat W W1 (layout_fields fs ++ [0; 0; 9] ++ rest) e d1 v HF1 C1 HW ltac:(lia) (app_nil_r _) ltac:(left; reflexivity) eq_refl HS E1) as K1.
    change (rlen d0) with (rlen d) in *. change (d_heap d0) with (d_heap d) in *. change (d_ref0 d0) with (d_ref0 d) in *.
    cbn [obj_loop] in E. erewrite dbind_ok in E by exact Es. destruct key as [|ch key]; [congruence|]. erewrite dbind_ok in E by exact E1. erewrite dbind_ok in E by reflexivity.
    pose proof (dec0_heap _ _ _ _ E1) as X1. change (d_heap d0) with (d_heap d) in X1. pose proof (dec0_tab _ _ _ _ E1) as X2. change (d_ref0 d0) with (d_ref0 d) in X2.
    set (d2 := set_heap (upd_nth loc (map_set (ch :: key) v) (d_heap d1)) d1) in E.
    assert (Hm2 : nth_error (d_heap d2) loc = Some (map_set (ch :: key) v m)) by (unfold d2; cbn [d_heap set_heap]; apply upd_same, (extends_nth _ _ _ _ X1), Hm).
    assert (L2 : length (d_heap d2) = length (d_heap d1)) by (unfold d2; cbn [d_heap set_heap]; apply upd_length). assert (L1 : (length (d_heap d) <= length (d_heap d1))%nat) by (destruct X1 as [x ->]; rewrite app_length; lia).
    destruct (IH HR2 Hol HN2 HD2 fuel k loc d2 W1 W' rest e d' (map_set (ch :: key) v m)) as (m' & M1 & ML & M2 & M3 & M4); [change (frefs (rlen d1) fs); rewrite T1; exact HF2|exact C2|exact HW1|lia|exact R1|exact E|exact Hm2|].
    exists m'. split; [exact M1|]. split; [lia|].
    assert (A12 : agree_but [loc] (d_heap d1) (d_heap d')).
    { intros i Hi Hn. rewrite M2; [|lia|exact Hn]. unfold d2. cbn [d_heap set_heap]. apply upd_other. intros ->. apply Hn. left. reflexivity. }
    split; [|split].
    + intros i Hi Hn. rewrite A12; [|lia|exact Hn]. destruct X1 as [x ->]. apply nth_error_app1, Hi.
    + intros k1 v1 Hi Hn. apply M3; [|intros X; apply Hn; right; exact X]. apply set_other; [|exact Hi]. intros ->. apply Hn. left. reflexivity.
    + intros up opn HI HU HB HT H j HA HBad. cbn [ufields] in HT. apply orb_true_iff in HT. destruct HT as [HT|HT].
      * exists (ch :: key), v. split; [apply M3; [apply set_in|exact HN1]|]. apply (K1 up opn HU HB HT H j); [|exact HBad].
        intros i Hi Hn. rewrite HA; [|lia|exact Hn]. apply A12; [exact Hi|]. intros [<-|[]]. apply Hn, HI.
      * apply (M4 up opn HI); [apply (ups_more _ _ _ _ X2), HU|intros i Hi; specialize (HB i Hi); lia| |exact HA|exact HBad]. change (rlen d2) with (rlen d1). rewrite T1. exact HT.
Qed.
Lemma cycle_object fs : Forall (fun p => RC (snd p)) fs -> Forall fok fs -> NoDup (map fst fs) -> Forall (fun p => distinct_names (snd p)) fs ->
  forall fuel k d W W' rest e d' loc, frefs (rlen d + 1) fs -> chain (femb fs) W 0 W' -> relw W d -> (length (layout_fields fs) < fuel)%nat -> d_r d = contr (layout_fields fs ++ [0; 0; 9] ++ rest) e ->
  decode_object0 (dec0 fuel) k d = (d', Ok loc) ->
  forall up opn, ups up opn (d_ref0 d) -> below opn (length (d_heap d)) -> ufields (rlen d :: up) (rlen d + 1) fs = true ->
  forall H j, agree_but opn (d_heap d') H -> (forall L, In L opn -> badn j H (VObj L)) ->
  badn j H (VObj loc) /\ exists m key v, nth_error H loc = Some m /\ In (key, v) m /\ badn j H v.
Proof.
  intros HR Hok HN HD fuel k d W W' rest e d' loc HF HC HW Hf Hr E up opn HU HB HT H j HA HBad.
  unfold decode_object0 in E. erewrite dbind_ok in E by reflexivity. erewrite dbind_ok in E by reflexivity. set (d1 := set_ref0 _ _) in E.
  apply bind_ok in E. destruct E as (d2 & [] & E1 & E2). injection E2 as <- <-.
  assert (L1 : rlen d1 = rlen d + 1) by (unfold d1; cbn [set_ref0 set_heap d_ref0]; rewrite len_app; reflexivity).
  destruct (cycle_fields fs HR Hok HN HD fuel k (length (d_heap d)) d1 W W' rest e d2 []) as (m & M1 & ML & _ & _ & M4); [rewrite L1; exact HF|exact HC|exact HW|exact Hf|exact Hr|exact E1|unfold d1; cbn [set_ref0 set_heap d_heap]; apply nth_error_len|].
  assert (Hl : length (d_heap d1) = S (length (d_heap d))) by (unfold d1; cbn [set_ref0 set_heap d_heap]; rewrite app_length; cbn [length]; lia).
  assert (HM : nth_error H (length (d_heap d)) = Some m) by (rewrite HA; [exact M1|lia|intros X; specialize (HB _ X); lia]).
  assert (ST : forall i, (i <= j)%nat -> badn i H (VObj (length (d_heap d))) -> exists key v, In (key, v) m /\ badn i H v).
  { intros i Hi B. apply (M4 (rlen d :: up) (length (d_heap d) :: opn)); [left; reflexivity| | |rewrite L1; exact HT| |].
    - intros x [<-|Hx].
      + exists (length (d_heap d)). split; [left; reflexivity|]. unfold d1. cbn [set_ref0 d_ref0]. unfold len. rewrite Nat2Z.id. apply nth_error_len.
      + destruct (HU x Hx) as (L & A & B'). exists L. split; [right; exact A|]. unfold d1. cbn [set_ref0 set_heap d_ref0]. rewrite nth_error_app1; [exact B'|apply nth_error_Some; congruence].
    - intros x [<-|Hx]; [lia|specialize (HB _ Hx); lia].
    - intros x Hx Hn. apply HA; [exact Hx|intros X; apply Hn; right; exact X].
    - intros L [<-|HL]; [exact B|]. apply (badn_le i j); [exact Hi|apply HBad, HL]. }
  assert (BO : forall i, (i <= j)%nat -> badn i H (VObj (length (d_heap d)))).
  { induction i as [|i IHi]; intros Hi; [intros p Hp; lia|]. destruct (ST i ltac:(lia) (IHi ltac:(lia))) as (key & v & I1 & I2). exact (bad_obj i H _ m key v HM I1 I2). }
  split; [apply BO; lia|]. destruct (ST j (le_n _) (BO j (le_n _))) as (key & v & I1 & I2). exists m, key, v. split; [exact HM|]. split; assumption.
Qed.
Lemma cycle_elems l : Forall RC l -> Forall (doc_ok true) l -> Forall distinct_names l -> forall fuel k n d s c W W' rest e d' vs, erefs (rlen d) l -> chain (map embedded l) W c W' -> relw W d -> doc_end rest e (A_strict l) ->
  (length (concat (map layout0 l)) < fuel + c)%nat -> n = len l -> s ++ repeat 0 c = concat (map layout0 l) ++ rest -> c = 0%nat \/ rest = [] -> d_r d = contr s e -> loop_n (dec0 fuel) k n d = (d', Ok vs) ->
  extends (d_heap d) (d_heap d') /\
  forall up opn, ups up opn (d_ref0 d) -> below opn (length (d_heap d)) -> uelems up (rlen d) l = true ->
  forall H j, agree_but opn (d_heap d') H -> (forall L, In L opn -> badn j H (VObj L)) -> exists v, In v vs /\ badn j H v.
Proof.
  induction l as [|t l IH]; intros HR Hok HD fuel k n d s c W W' rest e d' vs HF HC HW Hs Hf Hn ES EC Hr E.
  - subst n. assert (E' : d' = d) by (destruct k; cbn in E; injection E as <- _; reflexivity). subst d'. split; [apply extends_refl|]. intros up opn _ _ X. discriminate X.
  - inversion HR as [|? ? HR1 HR2]; inversion Hok as [|? ? Hot Hol]; inversion HD as [|? ? HD1 HD2]; subst. destruct HF as [HF1 HF2]. rewrite len_cons in *. pose proof (len_nonneg l) as Hln.
    destruct k as [|k]; cbn [loop_n] in E; (destruct (Z.leb_spec (1 + len l) 0) as [Hz|Hz]; [lia|]); [discriminate E|]. cbn [map concat] in Hf, ES. rewrite app_length in Hf. rewrite <- app_assoc in ES.
    cbn [map chain] in HC. destruct HC as (c1 & W1 & c2 & C1 & C2 & -> & EM). pose proof (elems_lengths _ _ _ _ C2) as L2. pose proof (embedded_lengths _ _ _ _ C1) as L1.
    assert (EM' : c1 = 0%nat \/ concat (map layout0 l) = []) by (destruct EM as [EM|EM]; [left; exact EM|right; destruct l; [reflexivity|discriminate EM]]).
    destruct (cut_split s c1 c2 (layout0 t) (concat (map layout0 l)) rest ES ltac:(lia || tauto) ltac:(lia) EM') as (s2 & ES1 & EC1 & ES2 & EC2).
    assert (HF' : (length (layout0 t) < fuel + c1)%nat) by (destruct EM' as [-> |EM']; [lia|rewrite EM' in *; cbn [length] in *; lia]).
    assert (HS1 : doc_end s2 e t).
    { destruct Hs as [Hs|[Hs|Hs]].
      - left. intros ->. destruct EC as [EC|EC]; [|congruence]. assert (c2 = 0%nat) by lia. subst c2. apply cut_none in ES2. symmetry in ES2. apply app_eq_nil in ES2. tauto.
      - right; left; exact Hs.
      - destruct l as [|t2 l]; [right; right; exact Hs|]. left. intros ->. apply (f_equal (@length Z)) in ES2. rewrite !app_length, repeat_length in ES2. cbn [length] in L2, ES2. lia. }
    destruct (dec0_refsw t Hot fuel d s c1 W W1 s2 e HF1 C1 HW HF' ES1 EC1 Hr HS1) as (d1 & v & E1 & R1 & T1 & HW1).
    pose proof (HR1 Hot HD1 fuel d s c1 W W1 s2 e d1 v HF1 C1 HW HF' ES1 EC1 Hr HS1 E1) as K1.
    erewrite dbind_ok in E by exact E1. apply bind_ok in E. destruct E as (d2 & ws & E2 & E3). injection E3 as <- <-.
    pose proof (dec0_heap _ _ _ _ E1) as X1. pose proof (dec0_tab _ _ _ _ E1) as X2.
    destruct (IH HR2 Hol HD2 fuel k (1 + len l - 1) d1 s2 c2 W1 W' rest e d2 ws) as (X3 & K2); [rewrite T1; exact HF2|exact C2|exact HW1| | |lia|exact ES2|exact EC2|exact R1|exact E2|].
    { destruct Hs as [Hs|[Hs|Hs]]; [left; exact Hs|right; left; exact Hs|]. destruct l as [|t2 l]; [right; right; reflexivity|].
      right; right. destruct (exists_last (l := t2 :: l) ltac:(discriminate)) as (l' & x & El). rewrite El in *. rewrite doc_ends_last. change (t :: l' ++ [x]) with ((t :: l') ++ [x]) in Hs. rewrite doc_ends_last in Hs. exact Hs. }
    { destruct EM' as [-> |EM']; [lia|rewrite EM' in *; cbn [length] in *; lia]. }
    split; [eapply extends_trans; eassumption|]. intros up opn HU HB HT H j HA HBad. cbn [uelems] in HT. apply orb_true_iff in HT.
    destruct HT as [HT|HT].
    + exists v. split; [left; reflexivity|]. apply (K1 up opn HU HB HT H j); [|exact HBad]. intros i Hi Hn. rewrite HA; [|destruct X3 as [x ->]; rewrite app_length; lia|exact Hn]. destruct X3 as [x ->]. apply nth_error_app1, Hi.
    + destruct (K2 up opn) with (H := H) (j := j) as (w & I1 & I2); [apply (ups_more _ _ _ _ X2), HU|intros i Hi; specialize (HB i Hi); destruct X1 as [x ->]; rewrite app_length; lia|rewrite T1; exact HT|exact HA|exact HBad|]. exists w. split; [right; exact I1|exact I2].
Qed.
Theorem cycle_all t : RC t.
Proof.
  induction t as [b|b|s|fs IH| | |i|s|n fs IH|l IH|b z|s| |s|ty fs IH] using doc0_ind';
    intros Hok HD [|fuel] d x c W W' rest e d' v HF HM HW Hf ES EC Hr Hs E up opn HU HB HT; try (discriminate HT); try (discriminate E); cbn [doc_ok embedded layout0 distinct_names] in *;
    change (2 ^ 32) with 4294967296 in *; change (2 ^ 16) with 65536 in *; intros H j HA HBad.
  - destruct HM as [-> HM]. apply cut_none in ES. subst x. destruct HD as [HN HD]. apply all_of_map in Hok, HD. cbn [length app] in Hf, Hr. rewrite app_length in Hf. fold (layout_fields fs) in Hf, Hr. rewrite <- app_assoc in Hr. cbn [length] in Hf.
    revert E. step0 Hr. intros E. apply bind_ok in E. destruct E as (d1 & loc & E1 & E2). injection E2 as <- <-. rewrite up_object in HT.
    apply (cycle_object fs IH Hok HN HD fuel fuel (set_r (contr (layout_fields fs ++ [0; 0; 9] ++ rest) e) d) W W' rest e d1 loc HF HM HW ltac:(lia) eq_refl E1 up opn HU HB HT H j HA HBad).
  - destruct HM as [-> ->]. apply cut_none in ES. subst x. cbn [app] in Hr. destruct Hok as [_ Hi]. cbn [refers_up] in HT. apply existsb_exists in HT. destruct HT as (y & Hy & Ey). apply Z.eqb_eq in Ey. subst y.
    destruct (HU i Hy) as (L & A & B). revert E. step0 Hr. unfold decode_reference0. erewrite dbind_ok by (change 2 with (len (be16 i)); eapply read_be_contr; [reflexivity|reflexivity]). rewrite be_val_be16, Z.mod_small by lia. cbn [d_ref0 set_r].
    cbn [refs_in] in HF. destruct (Z.ltb_spec (rlen d) i); [lia|]. destruct (Z.eqb_spec i (rlen d)); [lia|]. erewrite nth_error_nth by exact B. intros E. injection E as <- <-. apply HBad, A.
  - destruct HM as [-> HM]. apply cut_none in ES. subst x. destruct HD as [HN HD]. destruct Hok as [_ Hok]. apply all_of_map in Hok, HD. cbn [length app] in Hf, Hr. rewrite !app_length in Hf. fold (layout_fields fs) in Hf, Hr. rewrite <- !app_assoc in Hr. cbn [length be32] in Hf.
    revert E. step0 Hr. unfold decode_ecma0. erewrite dbind_ok by (change 4 with (len (be32 n)); eapply read_be_contr; [reflexivity|reflexivity]). intros E. apply bind_ok in E. destruct E as (d1 & loc & E1 & E2). injection E2 as <- <-. rewrite up_ecma in HT.
    rewrite ?set_r_set_r in E1. apply (cycle_object fs IH Hok HN HD fuel fuel (set_r (contr (layout_fields fs ++ [0; 0; 9] ++ rest) e) d) W W' rest e d1 loc HF HM HW ltac:(lia) eq_refl E1 up opn HU HB HT H j HA HBad).
  - destruct Hok as [Hlen Hall]. apply all_of_map in Hall, HD. cbn [length app] in Hf, ES. rewrite app_length in Hf. cbn [be32 length] in Hf. rewrite <- app_assoc in ES. pose proof (elems_lengths _ _ _ _ HM) as Hcl.
    assert (EX : exists x', x = 10 :: be32 (len l) ++ x' /\ x' ++ repeat 0 c = concat (map layout0 l) ++ rest).
    { destruct (cut_split x 0 c (10 :: be32 (len l)) (concat (map layout0 l)) rest) as (s2 & A & _ & B & _); [exact ES|exact EC|lia|left; reflexivity|]. exists s2. apply cut_none in A. split; [exact A|exact B]. }
    destruct EX as (x' & -> & ES'). cbn [app] in Hr. rewrite up_strict in HT.
    set (d1 := set_ref0 (d_ref0 d ++ [VArr []]) (set_r (contr x' e) d)).
    assert (L1 : rlen d1 = rlen d + 1) by (unfold d1; cbn [set_ref0 d_ref0]; rewrite len_app; reflexivity).
    revert E. step0 Hr. unfold decode_strict0. erewrite dbind_ok by (change 4 with (len (be32 (len l))); eapply read_be_contr; [reflexivity|reflexivity]).
    rewrite be_val_be32, Z.mod_small by (pose proof (len_nonneg l); lia). erewrite dbind_ok by reflexivity. intros E. apply bind_ok in E. destruct E as (d2 & vs & E1 & E2). injection E2 as <- <-.
    destruct (cycle_elems l IH Hall HD fuel fuel (len l) d1 x' c W W' rest e d2 vs) as (X & K); [rewrite L1; exact HF|exact HM|exact HW|exact Hs|lia|reflexivity|exact ES'|exact EC|reflexivity|exact E1|].
    destruct (K up opn) with (H := H) (j := j) as (w & I1 & I2); [apply (ups_more _ _ (d_ref0 d)); [exists [VArr []]; reflexivity|exact HU]|exact HB|rewrite L1; exact HT|exact HA|exact HBad|].
    apply (badn_le j (S j)); [lia|]. apply (bad_arr j H vs w I1 I2).
  - destruct HM as [-> HM]. apply cut_none in ES. subst x. destruct HD as [HN HD]. destruct Hok as [Htl Hok]. apply all_of_map in Hok, HD. cbn [length app] in Hf, Hr. rewrite !app_length in Hf. fold (layout_fields fs) in Hf, Hr. rewrite <- !app_assoc in Hr. cbn [length] in Hf.
    set (d1 := set_r (contr (layout_fields fs ++ [0; 0; 9] ++ rest) e)
                 (set_ref0 (d_ref0 d ++ [VTyped [] None])
                    (set_r (contr (wire_utf8 ty ++ layout_fields fs ++ [0; 0; 9] ++ rest) e) d))).
    assert (L1 : rlen d1 = rlen d + 1) by (unfold d1; cbn [set_r set_ref0 d_ref0]; rewrite len_app; reflexivity).
    revert E. step0 Hr. unfold decode_typed0. erewrite dbind_ok by reflexivity.
    erewrite dbind_ok by (eapply decode_string0_contr; [reflexivity|exact Htl|right; left; intros X; apply app_eq_nil in X; destruct X; discriminate]).
    intros E. apply bind_ok in E. destruct E as (d2 & loc & E1 & E2). injection E2 as <- <-. rewrite up_typed in HT. rewrite refs_typed in HF.
    destruct (cycle_object fs IH Hok HN HD fuel fuel d1 W W' rest e d2 loc) with (up := up) (opn := opn) (H := H) (j := j) as (_ & m & key & w & M1 & M2 & M3);
      [rewrite L1; replace (rlen d + 1 + 1) with (rlen d + 2) by lia; exact HF|exact HM|exact HW|lia|reflexivity|exact E1|apply (ups_more _ _ (d_ref0 d)); [exists [VTyped [] None]; reflexivity|exact HU]|exact HB|rewrite L1; replace (rlen d + 1 + 1) with (rlen d + 2) by lia; exact HT|exact HA|exact HBad|].
    apply (badn_le j (S j)); [lia|]. exact (bad_typed j H ty loc m key w M1 M2 M3).
Qed.
