(** The layouts of Encode within the grammar of Spec/AmfDoc.v. *)
From Verif Require Import Base.Go Base.GoFacts Base.IO Base.Float64 Proofs.IOFacts Proofs.Float64
  Model.AmfTypes Model.Amf3 Model.Amf0 Spec.Amf Spec.AmfDoc Proofs.AmfFacts Proofs.Amf0Enc Proofs.Amf0RT.

Lemma map_all_eq {A B} (f g : A -> B) (Q : A -> Prop) l : Forall (fun x => Q x -> f x = g x) l -> all_of (map Q l) -> map f l = map g l.
Proof. induction 1 as [|x l H _ IH]; cbn; [reflexivity|]. intros [H1 H2]. rewrite H, IH by assumption. reflexivity. Qed.

Lemma layout_doc t : ok0 t -> layout0 (doc_of t) = wire0 t.
Proof.
  induction t as [|b|b|w z|w z|s|s|s|l IH|fs IH|ty fs IH|] using tree_ind'; cbn [ok0]; intros Hok; try contradiction; try reflexivity.
  - cbn [doc_of wire0]. destruct (len s <=? 65535); reflexivity.
  - cbn [doc_of wire0 layout0]. unfold len. rewrite map_length, flat_map_concat, map_map. reflexivity.
  - cbn [doc_of wire0 layout0]. destruct Hok as [_ Hok]. unfold len. rewrite map_length, map_map.
    rewrite (map_all_eq _ wire0 _ _ IH Hok). reflexivity.
  - cbn [doc_of wire0 layout0]. destruct Hok as [_ Hok]. rewrite map_map. cbn [fst snd].
    erewrite (map_all_eq _ (fun p => wire_utf8 (fst p) ++ wire0 (snd p))); [reflexivity| |exact Hok].
    eapply Forall_impl; [|exact IH]. cbn. intros p H [_ H2]. rewrite H by exact H2. reflexivity.
  - cbn [doc_of wire0 layout0]. destruct Hok as (_ & _ & _ & Hok). rewrite map_map. cbn [fst snd].
    erewrite (map_all_eq _ (fun p => wire_utf8 (fst p) ++ wire0 (snd p))); [reflexivity| |exact Hok].
    eapply Forall_impl; [|exact IH]. cbn. intros p H [_ H2]. rewrite H by exact H2. reflexivity.
Qed.

Lemma all_of_map {A B} (f : A -> B) (P : B -> Prop) (Q : A -> Prop) l : Forall (fun x => Q x -> P (f x)) l -> all_of (map Q l) -> all_of (map P (map f l)).
Proof. induction 1 as [|x l H _ IH]; cbn; [tauto|]. intros [H1 H2]. split; [apply H, H1|apply IH, H2]. Qed.

Lemma doc_of_ok t : ok0 t -> doc_ok false (doc_of t).
Proof.
  induction t as [|b|b|w z|w z|s|s|s|l IH|fs IH|ty fs IH|] using tree_ind'; cbn [ok0]; intros Hok; try contradiction; cbn [doc_of doc_ok].
  - exact I.
  - destruct b; auto.
  - exact Hok.
  - apply f64_of_Z_range.
  - apply f64_of_Z_range.
  - destruct Hok as [_ H]. destruct (len s <=? 65535) eqn:E; cbn [doc_ok]; lia.
  - destruct Hok as [_ H]. split; [unfold len in *; rewrite map_length; exact H|]. clear. induction s; cbn; [exact I|]. split; [apply f64_of_Z_range|exact IHs].
  - destruct Hok as [H Hok]. split; [unfold len in *; rewrite map_length; exact H|]. eapply all_of_map; [exact IH|exact Hok].
  - destruct Hok as [_ Hok]. eapply all_of_map; [|exact Hok]. eapply Forall_impl; [|exact IH]. cbn. intros p H [[_ H1] H2]. auto.
  - destruct Hok as (_ & H & _ & Hok). split; [exact H|]. eapply all_of_map; [|exact Hok]. eapply Forall_impl; [|exact IH]. cbn. intros p H0 [[_ H1] H2]. auto.
Qed.

Lemma put_fresh k v fs : ~ In k (map fst fs) -> put k v fs = fs ++ [(k, v)].
Proof.
  induction fs as [|[k' v'] fs IH]; cbn; [reflexivity|]. intros H. destruct (bytes_eqb k k') eqn:E.
  - apply bytes_eqb_eq in E. subst. tauto.
  - rewrite IH by tauto. reflexivity.
Qed.
Lemma members_nodup fs : NoDup (map fst fs) -> members fs = fs.
Proof.
  intros H. unfold members. assert (G : forall acc, NoDup (map fst (acc ++ fs)) -> fold_left (fun acc p => put (fst p) (snd p) acc) fs acc = acc ++ fs).
  { clear H. induction fs as [|[k v] fs IH]; intros acc H; cbn [fold_left]; [symmetry; apply app_nil_r|]. cbn [fst snd]. rewrite put_fresh.
    - rewrite IH; rewrite <- app_assoc; [reflexivity|exact H].
    - rewrite map_app in H. cbn in H. apply NoDup_remove_2 in H. rewrite in_app_iff in H. tauto. }
  apply (G []). exact H.
Qed.
Lemma meaning_doc t : ok0 t -> meaning0 (doc_of t) = img0 t.
Proof.
  induction t as [|b|b|w z|w z|s|s|s|l IH|fs IH|ty fs IH|] using tree_ind'; cbn [ok0]; intros Hok; try contradiction; try reflexivity.
  - destruct b; reflexivity.
  - cbn [doc_of img0]. destruct (len s <=? 65535); reflexivity.
  - cbn [doc_of meaning0 img0]. rewrite map_map. reflexivity.
  - cbn [doc_of meaning0 img0]. destruct Hok as [_ Hok]. rewrite map_map. rewrite (map_all_eq _ img0 _ _ IH Hok). reflexivity.
  - cbn [doc_of meaning0 img0]. destruct Hok as [HN Hok]. rewrite map_map. cbn [fst snd]. rewrite members_nodup; [|rewrite map_map; exact HN].
    erewrite (map_all_eq _ (fun p => (fst p, img0 (snd p)))); [reflexivity| |exact Hok].
    eapply Forall_impl; [|exact IH]. cbn. intros p H [_ H2]. rewrite H by exact H2. reflexivity.
  - cbn [doc_of meaning0 img0]. destruct Hok as (_ & _ & HN & Hok). rewrite map_map. cbn [fst snd]. rewrite members_nodup; [|rewrite map_map; exact HN].
    erewrite (map_all_eq _ (fun p => (fst p, img0 (snd p)))); [reflexivity| |exact Hok].
    eapply Forall_impl; [|exact IH]. cbn. intros p H [_ H2]. rewrite H by exact H2. reflexivity.
Qed.

Lemma encode_ecma0_emits fs : ok0 (TObj fs) -> len fs < 4294967296 ->
  let t := A_ecma (len fs) (map (fun p => (fst p, doc_of (snd p))) fs) in
  emits (encode_ecma0 fs) (layout0 t) (len (layout0 t)).
Proof.
  intros Hok Hl t. pose proof (layout_doc _ Hok) as W. cbn [doc_of layout0 wire0] in W. apply (f_equal (@tl Z)) in W. cbn [tl] in W. subst t. cbn [layout0]. rewrite W. clear W.
  unfold encode_ecma0. rewrite u32_id by (pose proof (len_nonneg fs); lia).
  change (8 :: ?x) with ([8] ++ x). eapply emits_bind; [apply write_byte_emits; unfold byte; lia|]. eapply emits_bind; [apply emits_write|].
  destruct Hok as [_ Hok].
  assert (F : Forall2 (fun f s => len (fst f) <= 65535 /\ emits (snd f) s (len s)) (map (fun p => (fst p, encode0 (snd p))) fs) (map (fun p => wire0 (snd p)) fs)).
  { clear - Hok. induction fs as [|[k v] fs IH]; cbn [map]; [constructor|]. cbn in Hok. destruct Hok as [[[_ H1] H2] H3]. constructor; [|apply IH, H3]. cbn. split; [lia|apply encode0_emits, H2]. }
  pose proof (encode_object0_emits _ _ false F) as E. cbv zeta in E. rewrite wire_fields_combine in E. cbn [app] in E.
  eapply emits_ext; [eapply emits_bind; [exact E|apply emits_ret]|apply app_nil_r|]. rewrite !len_app, len_be32. change (len [8]) with 1. lia.
Qed.
