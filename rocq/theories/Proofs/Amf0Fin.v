(** AMF0 input without references decodes to a finite value. *)
From Coq Require Import Permutation.
From Verif Require Import Base.Go Base.GoFacts Base.IO Base.Float64 Proofs.IOFacts
  Model.AmfTypes Model.Amf3 Model.Amf0 Spec.Amf Proofs.AmfFacts Proofs.Amf0Enc Proofs.Amf0RT Proofs.AmfTerm Proofs.AmfTame
  Proofs.Amf0More Proofs.AmfHeap.

Definition refless (d : dstate) : Prop := ~ In 7 (r_rest (d_r d)) /\ ~ In 17 (r_rest (d_r d)).
Lemma refless_step d d' : step_ok d d' -> refless d -> refless d'.
Proof.
  intros (_ & _ & _ & _ & _ & _ & [x Hx]) [H1 H2].
  assert (I : forall b, In b (r_rest (d_r d')) -> In b (r_rest (d_r d))).
  { intros b Hb. apply in_rev. rewrite Hx. apply in_or_app. left. apply in_rev. rewrite rev_involutive. exact Hb. }
  split; intros Hin; [apply H1|apply H2]; apply I, Hin.
Qed.

Definition finite_in (h : list omap) (a : nat) (v : value) : Prop :=
  exists p, local_unfolds h a (length h) v p.

Lemma finite_in_mono h h' a a' v : finite_in h a v -> (a' <= a)%nat -> (length h <= length h')%nat ->
  (forall i, (a <= i < length h)%nat -> nth_error h' i = nth_error h i) -> finite_in h' a' v.
Proof. intros [p H] H1 H2 H3. exists p. eapply local_unfolds_weaken; eassumption. Qed.

Definition fin (m : Dm value) : Prop := tame m /\ forall d d' v, refless d -> m d = (d', Ok v) ->
  extends (d_heap d) (d_heap d') /\ finite_in (d_heap d') (length (d_heap d)) v.

Lemma finite_leaf h a v p : (forall H, unfolds H v p) -> finite_in h a v.
Proof. intros H. exists p. intros H0 _. apply H. Qed.

Lemma nth_error_upd_other {A} (f : A -> A) : forall n l i, i <> n -> nth_error (upd_nth n f l) i = nth_error l i.
Proof. induction n; intros [|x l] [|i] H; cbn; auto; try congruence. Qed.
Lemma nth_error_upd_same {A} (f : A -> A) : forall n l x, nth_error l n = Some x -> nth_error (upd_nth n f l) n = Some (f x).
Proof. induction n; intros [|y l] x H; cbn in *; try discriminate; [inversion H; reflexivity|]. apply IHn, H. Qed.

Lemma map_set_Forall (P : value -> Prop) k v m : P v -> Forall (fun p => P (snd p)) m -> Forall (fun p => P (snd p)) (map_set k v m).
Proof.
  intros Hv. induction 1 as [|[k' v'] m Hx Hm IH]; cbn [map_set].
  - repeat constructor. exact Hv.
  - destruct (bytes_eqb k k'); constructor; cbn [snd]; auto.
Qed.

Lemma extends_nth_lt {A} (l l' : list A) i : extends l l' -> (i < length l)%nat -> nth_error l' i = nth_error l i.
Proof. intros [x ->] H. apply nth_error_app1, H. Qed.
Lemma extends_length {A} (l l' : list A) : extends l l' -> (length l <= length l')%nat.
Proof. intros [x ->]. rewrite app_length. lia. Qed.

Lemma fin_obj_loop dec loc : fin dec -> forall f d d' m, refless d ->
  nth_error (d_heap d) loc = Some m -> Forall (fun p => finite_in (d_heap d) (S loc) (snd p)) m ->
  obj_loop dec f loc d = (d', Ok tt) ->
  exists m', nth_error (d_heap d') loc = Some m' /\ Forall (fun p => finite_in (d_heap d') (S loc) (snd p)) m'.
Proof.
  intros [Td Fd]. induction f as [|f IH]; intros d d' m Hr Hn Hm; [discriminate|]. cbn [obj_loop].
  unfold dbind at 1. assert (Ts : tame decode_string0) by (unfold decode_string0; tame).
  pose proof (Ts d) as [S1 _].
  assert (Hh1 : d_heap (fst (decode_string0 d)) = d_heap d).
  { unfold decode_string0, dbind, read_be, read_bytes.
    destruct (read_full 2 (d_r d)) as [r1 [x|e| |]]; try reflexivity. cbn [set_r d_r].
    destruct (read (be_val x) r1) as [r2 [y|e| |]]; reflexivity. }
  destruct (decode_string0 d) as [d1 [key|e| |]]; try discriminate. cbn [fst] in *.
  destruct key as [|c key].
  - intros E. assert (Hh2 : d_heap (fst (next_byte_must_be 9 d1)) = d_heap d1).
    { unfold next_byte_must_be, read_byte, dbind, read_bytes. destruct (read 1 (d_r d1)) as [r1 [x|e| |]]; try reflexivity.
      cbn [set_r]. destruct (len x =? 1); [|reflexivity]. unfold dret. destruct (at_ x 0 =? 9); reflexivity. }
    rewrite E in Hh2. cbn [fst] in Hh2. rewrite Hh2, Hh1. eauto.
  - unfold dbind at 1. destruct (dec d1) as [d2 [v|e| |]] eqn:E2; try discriminate.
    assert (R1 : refless d1) by (eapply refless_step; eassumption).
    destruct (Fd _ _ _ R1 E2) as [X F]. rewrite Hh1 in X, F.
    pose proof (Td d1) as [S2 _]. rewrite E2 in S2. cbn [fst] in S2.
    cbn [dbind obj_set]. unfold dbind. cbn [obj_set]. intros E.
    assert (Hl : (loc < length (d_heap d))%nat) by (apply nth_error_Some; congruence).
    pose proof (extends_length _ _ X) as Hlx.
    eapply IH; [| | |exact E].
    + exact (refless_step _ _ S2 R1).
    + cbn [set_heap d_heap]. apply nth_error_upd_same. rewrite (extends_nth_lt _ _ _ X Hl). exact Hn.
    + cbn [set_heap d_heap]. apply map_set_Forall.
      * eapply finite_in_mono; [exact F|lia|rewrite upd_nth_length; lia|]. intros i Hi. apply nth_error_upd_other. lia.
      * eapply Forall_impl; [|exact Hm]. cbn beta. intros kv Hkv. eapply finite_in_mono; [exact Hkv|lia|rewrite upd_nth_length; lia|].
        intros i Hi. rewrite nth_error_upd_other by lia. apply extends_nth_lt; [exact X|lia].
Qed.

Lemma Forall_choose h a (m : omap) : Forall (fun p => finite_in h a (snd p)) m ->
  exists fs, forall H, agree H h a (length h) -> Forall2 (fun x y => fst x = fst y /\ unfolds H (snd x) (snd y)) m fs.
Proof.
  induction 1 as [|[k v] m [p Hp] _ [fs IH]]; [exists []; intros; constructor|].
  exists ((k, p) :: fs). intros H HH. constructor; [split; [reflexivity|apply Hp, HH]|apply IH, HH].
Qed.

Lemma fin_object dec : fin dec -> forall f d d' loc, refless d -> decode_object0 dec f d = (d', Ok loc) ->
  extends (d_heap d) (d_heap d') /\ loc = length (d_heap d) /\
  exists m fs, nth_error (d_heap d') loc = Some m /\
    forall H, agree H (d_heap d') loc (length (d_heap d')) -> Forall2 (fun x y => fst x = fst y /\ unfolds H (snd x) (snd y)) m fs.
Proof.
  intros Hd f d d' loc Hr. unfold decode_object0, dbind. cbn [alloc ref0_push].
  match goal with |- context [obj_loop _ _ _ ?y] => set (X := y) end.
  destruct (obj_loop dec f (length (d_heap d)) X) as [d2 [[]|e| |]] eqn:E; try discriminate.
  intros H; inversion H; subst; clear H.
  assert (HX : nth_error (d_heap X) (length (d_heap d)) = Some []).
  { subst X. cbn. rewrite nth_error_app2, Nat.sub_diag by lia. reflexivity. }
  destruct (fin_obj_loop dec _ Hd f X d' [] Hr HX (Forall_nil _) E) as (m & Hm & Fm).
  destruct (Forall_choose _ _ _ Fm) as [fs Hfs].
  assert (K : extends (d_heap d) (d_heap d')).
  { destruct Hd as [Td Fd].
    assert (Kd : forall g y y', refless y -> obj_loop dec g (length (d_heap d)) y = (y', Ok tt) ->
       (length (d_heap d) < length (d_heap y))%nat -> firstn (length (d_heap d)) (d_heap y') = firstn (length (d_heap d)) (d_heap y)).
    { induction g as [|g IHg]; intros y y' Ry; [discriminate|]. cbn [obj_loop]. unfold dbind at 1.
      assert (Ts : tame decode_string0) by (unfold decode_string0; tame). pose proof (Ts y) as [S1 _].
      assert (Hh1 : d_heap (fst (decode_string0 y)) = d_heap y).
      { unfold decode_string0, dbind, read_be, read_bytes.
        destruct (read_full 2 (d_r y)) as [r1 [x|e| |]]; try reflexivity. cbn [set_r d_r].
        destruct (read (be_val x) r1) as [r2 [z|e| |]]; reflexivity. }
      destruct (decode_string0 y) as [y1 [key|e| |]]; try discriminate. cbn [fst] in *. destruct key as [|c key].
      - intros Eq. assert (Hh2 : d_heap (fst (next_byte_must_be 9 y1)) = d_heap y1).
        { unfold next_byte_must_be, read_byte, dbind, read_bytes. destruct (read 1 (d_r y1)) as [r1 [x|e| |]]; try reflexivity.
          cbn [set_r]. destruct (len x =? 1); [|reflexivity]. unfold dret. destruct (at_ x 0 =? 9); reflexivity. }
        rewrite Eq in Hh2. cbn [fst] in Hh2. rewrite Hh2, Hh1. reflexivity.
      - unfold dbind at 1. destruct (dec y1) as [y2 [v|e| |]] eqn:E2; try discriminate.
        assert (R1 : refless y1) by (eapply refless_step; eassumption).
        destruct (Fd _ _ _ R1 E2) as [Xe _]. pose proof (Td y1) as [S2 _]. rewrite E2 in S2. cbn [fst] in S2.
        unfold dbind. cbn [obj_set]. intros Eq Hlt. pose proof (extends_length _ _ Xe). rewrite Hh1 in *.
        apply IHg in Eq.
        + rewrite Eq. cbn [set_heap d_heap]. rewrite firstn_upd_nth by lia. destruct Xe as [z ->].
          rewrite firstn_app. replace (length (d_heap d) - length (d_heap y))%nat with 0%nat by lia. cbn. apply app_nil_r.
        + exact (refless_step _ _ S2 R1).
        + cbn [set_heap d_heap]. rewrite upd_nth_length. lia. }
    specialize (Kd f X d' Hr E). subst X. cbn [set_ref0 set_heap d_heap] in Kd. rewrite app_length in Kd. cbn [length] in Kd.
    specialize (Kd ltac:(lia)). rewrite firstn_app, firstn_all, Nat.sub_diag in Kd. cbn [firstn] in Kd. rewrite app_nil_r in Kd.
    exists (skipn (length (d_heap d)) (d_heap d')). rewrite <- Kd at 1. rewrite firstn_skipn. reflexivity. }
  split; [exact K|]. split; [reflexivity|]. exists m, fs. split; [exact Hm|].
  intros H HH. apply Hfs. intros i Hi. apply HH. lia.
Qed.

Lemma fin_loop_n dec : fin dec -> forall f n d d' vs, refless d -> loop_n dec f n d = (d', Ok vs) ->
  extends (d_heap d) (d_heap d') /\ exists ps, forall H, agree H (d_heap d') (length (d_heap d)) (length (d_heap d')) -> Forall2 (unfolds H) vs ps.
Proof.
  intros [Td Fd]. induction f as [|f IH]; intros n d d' vs Hr; cbn [loop_n].
  - destruct (n <=? 0); [|discriminate]. intros H; inversion H; subst. split; [apply extends_refl|]. exists []. intros; constructor.
  - destruct (n <=? 0).
    { intros H; inversion H; subst. split; [apply extends_refl|]. exists []. intros; constructor. }
    unfold dbind. destruct (dec d) as [d1 [v|e| |]] eqn:E1; try discriminate.
    destruct (Fd _ _ _ Hr E1) as [X1 [p Fp]]. pose proof (Td d) as [S1 _]. rewrite E1 in S1. cbn [fst] in S1.
    destruct (loop_n dec f (n - 1) d1) as [d2 [vs2|e| |]] eqn:E2; try discriminate. intros H; inversion H; subst; clear H.
    destruct (IH _ _ _ _ (refless_step _ _ S1 Hr) E2) as [X2 [ps Fps]].
    pose proof (extends_length _ _ X1). pose proof (extends_length _ _ X2).
    split; [eapply extends_trans; eassumption|]. exists (p :: ps). intros HX0 HH. constructor.
    + apply Fp. intros i Hi. rewrite HH by lia. apply extends_nth_lt; [exact X2|lia].
    + apply Fps. intros i Hi. apply HH. lia.
Qed.

Lemma fin_leaf {A} (m : Dm A) (f : A -> value) : tame m -> (forall d, d_heap (fst (m d)) = d_heap d) ->
  (forall a, exists p, forall H, unfolds H (f a) p) -> fin (dbind m (fun a => dret (f a))).
Proof.
  intros Tm Hh Hf. split; [apply tame_bind; [exact Tm|intros; apply tame_ret]|].
  intros d d' v _. unfold dbind. specialize (Hh d). destruct (m d) as [d1 [a|e| |]]; try discriminate.
  cbn [fst] in Hh. intros E; inversion E; subst. rewrite Hh. split; [apply extends_refl|].
  destruct (Hf a) as [p Hp]. exists p. intros H _. apply Hp.
Qed.

Lemma heap_read_bytes n d : d_heap (fst (read_bytes n d)) = d_heap d.
Proof. unfold read_bytes. destruct (read n (d_r d)) as [r [s|e| |]]; reflexivity. Qed.
Lemma heap_read_be n d : d_heap (fst (read_be n d)) = d_heap d.
Proof. unfold read_be. destruct (read_full n (d_r d)) as [r [s|e| |]]; reflexivity. Qed.
Lemma heap_bind {A B} (m : Dm A) (k : A -> Dm B) : (forall d, d_heap (fst (m d)) = d_heap d) ->
  (forall a d, d_heap (fst (k a d)) = d_heap d) -> forall d, d_heap (fst (dbind m k d)) = d_heap d.
Proof.
  intros H1 H2 d. unfold dbind. specialize (H1 d). destruct (m d) as [d1 [a|e| |]]; cbn [fst] in *; try exact H1.
  rewrite H2. exact H1.
Qed.

Lemma fin_dec0_step f : fin (dec0 f) -> forall d d' v, refless d -> dec0 (S f) d = (d', Ok v) ->
  extends (d_heap d) (d_heap d') /\ finite_in (d_heap d') (length (d_heap d)) v.
Proof.
  intros IH d d' v Hr. cbn [dec0]. unfold dbind at 1.
  destruct (read_byte d) as [d1 [m|e| |]] eqn:E; try discriminate.
  assert (Hm7 : m <> 7) by (intros ->; apply (proj1 Hr); eapply read_byte_in; exact E).
  assert (Hm17 : m <> 17) by (intros ->; apply (proj2 Hr); eapply read_byte_in; exact E).
  pose proof (tame_read_byte d) as [S1 _]. rewrite E in S1. cbn [fst] in S1.
  assert (R1 : refless d1) by (eapply refless_step; eassumption).
  assert (Hh : d_heap d1 = d_heap d).
  { assert (G : d_heap (fst (read_byte d)) = d_heap d).
    { unfold read_byte. apply heap_bind; [intros; apply heap_read_bytes|reflexivity]. }
    rewrite E in G. exact G. }
  rewrite <- Hh. clear Hh.
  assert (LS : forall n a x, d_heap (fst ((d* n0 := read_be n in read_bytes (a n0)) x)) = d_heap x).
  { intros n a x. apply heap_bind; [intros; apply heap_read_be|intros; apply heap_read_bytes]. }
  assert (OB : forall k (wrap : nat -> value),
    (forall H h loc m0 fs, nth_error H loc = Some m0 -> agree H h loc (length h) ->
       Forall2 (fun x y => fst x = fst y /\ unfolds H (snd x) (snd y)) m0 fs -> unfolds H (wrap loc) (k fs)) ->
    forall x x' w, refless x -> (d* loc := decode_object0 (dec0 f) f in dret (wrap loc)) x = (x', Ok w) ->
      extends (d_heap x) (d_heap x') /\ finite_in (d_heap x') (length (d_heap x)) w).
  { intros k wrap Hw x x' w Rx. unfold dbind. destruct (decode_object0 (dec0 f) f x) as [x1 [loc|e| |]] eqn:Eo; try discriminate.
    intros Eq; inversion Eq; subst. destruct (fin_object _ IH f x x' loc Rx Eo) as (X & -> & m0 & fs & Hn & HF).
    split; [exact X|]. exists (k fs). intros H HH. eapply Hw; [|exact HH|apply HF, HH].
    rewrite HH; [exact Hn|]. split; [lia|]. apply nth_error_Some. congruence. }
  repeat match goal with |- (if ?c then _ else _) _ = _ -> _ => destruct c eqn:? end; try lia; try discriminate.
  - apply (fin_leaf (read_be 8) VNum); [tame|apply heap_read_be| |exact R1]. intros a. exists (PNum a). constructor.
  - apply (fin_leaf read_byte (fun b => VBool (b =? 1))); [apply tame_read_byte| | |exact R1].
    + intros x. unfold read_byte. apply heap_bind; [intros; apply heap_read_bytes|reflexivity].
    + intros a. exists (PBool (a =? 1)). constructor.
  - apply (fin_leaf decode_string0 VStr); [unfold decode_string0; tame|intros; apply (LS 2 (fun n => n))| |exact R1]. intros a. exists (PStr a). constructor.
  - apply (OB PObj VObj); [|exact R1]. intros. econstructor; [eassumption|eassumption|apply Permutation_refl].
  - intros Eq; inversion Eq; subst. split; [apply extends_refl|]. apply (finite_leaf _ _ _ PNil). constructor.
  - unfold decode_ecma0. unfold dbind at 1. pose proof (heap_read_be 4 d1) as G. pose proof (tame_read_be 4 d1) as [S2 _].
    destruct (read_be 4 d1) as [d2 [n|e| |]]; try discriminate. cbn [fst] in *. rewrite <- G.
    apply (OB PObj VObj); [|eapply refless_step; eassumption]. intros. econstructor; [eassumption|eassumption|apply Permutation_refl].
  - unfold decode_strict0. unfold dbind at 1. pose proof (heap_read_be 4 d1) as G. pose proof (tame_read_be 4 d1) as [S2 _].
    destruct (read_be 4 d1) as [d2 [n|e| |]]; try discriminate. cbn [fst] in *. rewrite <- G.
    unfold dbind. cbn [ref0_push]. destruct (loop_n (dec0 f) f n _) as [d3 [vs|e| |]] eqn:El; try discriminate.
    intros Eq; inversion Eq; subst. apply (fin_loop_n _ IH) in El.
    + cbn [set_ref0 d_heap] in El. destruct El as [X [ps Fp]]. split; [exact X|]. exists (PArr ps). intros H HH. constructor. apply Fp, HH.
    + eapply refless_step; [|exact R1]. eapply step_trans; [exact S2|]. apply (tame_ref0_push (VArr []) d2).
  - unfold decode_date0. change (dbind (read_be 8) (fun bits => d* _ := read_bytes 2 in dret (VNum bits)) d1) with
      ((d* bits := read_be 8 in d* _ := read_bytes 2 in dret (VNum bits)) d1).
    unfold dbind. pose proof (heap_read_be 8 d1) as G. destruct (read_be 8 d1) as [d2 [n|e| |]]; try discriminate. cbn [fst] in *. rewrite <- G.
    pose proof (heap_read_bytes 2 d2) as G2. destruct (read_bytes 2 d2) as [d3 [n2|e| |]]; try discriminate. cbn [fst] in *.
    intros Eq; inversion Eq; subst. rewrite G2. split; [apply extends_refl|]. apply (finite_leaf _ _ _ (PNum n)). constructor.
  - apply (fin_leaf decode_longstring0 VStr); [unfold decode_longstring0; tame|intros; apply (LS 4 (fun n => n))| |exact R1]. intros a. exists (PStr a). constructor.
  - apply (fin_leaf decode_longstring0 VStr); [unfold decode_longstring0; tame|intros; apply (LS 4 (fun n => n))| |exact R1]. intros a. exists (PStr a). constructor.
  - unfold decode_typed0. unfold dbind at 1. cbn [ref0_push].
    set (d2 := set_ref0 _ d1). assert (R2 : refless d2) by exact R1. change (d_heap d1) with (d_heap d2).
    unfold dbind at 1. assert (Ts : tame decode_string0) by (unfold decode_string0; tame). pose proof (Ts d2) as [S2 _].
    assert (G : d_heap (fst (decode_string0 d2)) = d_heap d2) by (apply (LS 2 (fun n => n) d2)).
    destruct (decode_string0 d2) as [d3 [ty|e| |]]; try discriminate. cbn [fst] in *. rewrite <- G.
    apply (OB (PTyped ty) (fun loc => VTyped ty (Some loc))); [|eapply refless_step; eassumption].
    intros. econstructor; [eassumption|eassumption|apply Permutation_refl].
Qed.

Theorem fin_dec0 : forall f, fin (dec0 f).
Proof.
  induction f as [|f IH].
  - split; [apply tame_dec0|]. discriminate.
  - split; [apply tame_dec0|]. apply fin_dec0_step, IH.
Qed.

Lemma decode0_finite d d' v : ~ In 7 (r_rest (d_r d)) -> ~ In 17 (r_rest (d_r d)) -> decode0 d = (d', Ok v) ->
  exists p, unfolds (d_heap d') v p.
Proof.
  intros H1 H2 E. destruct (proj2 (fin_dec0 _) _ _ _ (conj H1 H2) E) as [_ [p Hp]]. exists p. apply Hp. intros i _. reflexivity.
Qed.

Lemma unfolds_obj_inv h loc p : unfolds h (VObj loc) p -> exists m fs fs', p = PObj fs' /\ nth_error h loc = Some m /\
  Forall2 (fun a b => fst a = fst b /\ unfolds h (snd a) (snd b)) m fs /\ Permutation fs fs'.
Proof. intros H. inversion H; subst. do 3 eexists. repeat split; eassumption. Qed.

(** The object {a: itself}. *)
Lemma no_cycle (h : list omap) k v : @nth_error omap h 0 = Some [(k, v)] -> v = VObj 0 -> forall p, ~ unfolds h (VObj 0) p.
Proof.
  intros Hh -> p. induction p as [p IH] using (well_founded_induction (Wf_nat.well_founded_ltof pval
    (fix size (p : pval) := match p with PObj fs => S (fold_right (fun f n => size (snd f) + n) 0 fs) | _ => 0 end)%nat)).
  intros Hu. apply unfolds_obj_inv in Hu as (m & fs & fs' & -> & Hn & HF & HP). rewrite Hh in Hn. inversion Hn; subst.
  inversion HF as [|x y m2 fs2 [Hk Hv] Hr]; subst. inversion Hr; subst.
  apply Permutation_length_1_inv in HP. subst fs'. apply (IH (snd y)); [|exact Hv].
  unfold Wf_nat.ltof. destruct y as [ky py]. cbn [fold_right snd]. cbn. lia.
Qed.
