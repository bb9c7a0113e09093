(** The allocation logs of Model/AmfAlloc.v leave nothing out: every byte read was read into a buffer of the log, and every
    dense part of an array was made. *)
From Verif Require Import Base.Go Base.GoFacts Base.IO Base.Float64 Proofs.IOFacts Model.AmfTypes Model.Amf3 Model.Amf0 Model.AmfAlloc Spec.AmfAlloc
  Proofs.AmfFacts Proofs.AmfContr Proofs.AmfTame Proofs.AmfTerm Proofs.AmfAlloc.
Local Open Scope Z_scope.

Definition dense_of (v : value) : list value := match v with VEcma l _ => l | _ => [] end.
Definition fair (d : dstate) : Prop := is_bytes (r_rest (d_r d)) /\ Forall (fun t => t_ext t = false) (d_trait3 d) /\
  Forall (fun v => dense_of v = []) (d_obj3 d).
Lemma fair_suffix d r p : fair d -> r_rest (d_r d) = p ++ r_rest r -> fair (set_r r d).
Proof. intros (H1 & H2) E. rewrite E in H1. apply is_bytes_app in H1. split; [apply H1|exact H2]. Qed.
(** [w]: bytes asked for on top of those for the bytes read. *)
Definition lq {A} (Q : A -> Prop) (w : A -> Z) (m : Am A) : Prop := forall d, fair d ->
  let '(l, (d', r)) := m d in fair d' /\
  exists p, r_rest (d_r d) = p ++ r_rest (d_r d') /\ len p <= total l /\ match r with Ok x => Q x /\ len p + w x <= total l | _ => True end.
Definition w0 {A} (x : A) : Z := 0.
Lemma lq_bind {A B} Q w (R : B -> Prop) w' (m : Am A) (k : A -> Am B) :
  lq Q w m -> (forall x, Q x -> lq R (fun y => w' y - w x) (k x)) -> (forall x, Q x -> 0 <= w x) -> lq R w' (abind m k).
Proof.
  intros Hm Hk W d G. specialize (Hm d G). unfold abind. destruct (m d) as [l [d1 [x|er| |]]]; destruct Hm as (G1 & p & E & L & H);
    try (split; [exact G1|]; exists p; split; [exact E|split; [exact L|exact I]]).
  destruct H as [HQ H]. specialize (W x HQ). specialize (Hk x HQ d1 G1). destruct (k x d1) as [l' [d2 r]]. destruct Hk as (G2 & p2 & E2 & L2 & H2). split; [exact G2|].
  exists (p ++ p2). rewrite E, E2, app_assoc. split; [reflexivity|]. rewrite total_app, len_app. split; [lia|]. destruct r; auto. destruct H2 as [H2 H3]. split; [exact H2|lia].
Qed.
Lemma lq_seq {A B} Q (R : B -> Prop) w' (m : Am A) (k : A -> Am B) : lq Q w0 m -> (forall x, Q x -> lq R w' (k x)) -> lq R w' (abind m k).
Proof.
  intros Hm Hk. apply (lq_bind Q w0); [exact Hm| |unfold w0; lia]. intros x Hx d G. specialize (Hk x Hx d G). destruct (k x d) as [l [d' r]].
  destruct Hk as (G' & p & E & L & H). split; [exact G'|]. exists p. split; [exact E|]. split; [exact L|]. unfold w0. destruct r; auto. split; [apply H|]. destruct H. lia.
Qed.
Lemma lq_weak {A} (Q Q' : A -> Prop) w w' m : lq Q w m -> (forall x, Q x -> Q' x) -> (forall x, Q x -> w' x <= w x) -> lq Q' w' m.
Proof.
  intros Hm HQ HW d G. specialize (Hm d G). destruct (m d) as [l [d' r]]. destruct Hm as (G' & p & E & L & H). split; [exact G'|]. exists p. split; [exact E|]. split; [exact L|].
  destruct r; auto. destruct H as [H1 H2]. split; [auto|]. specialize (HW a H1). lia.
Qed.
Lemma lq_same {A} (Q : A -> Prop) w (m : Dm A) : (forall d, fair d -> d_r (fst (m d)) = d_r d /\ fair (fst (m d)) /\ match snd (m d) with Ok x => Q x /\ w x <= 0 | _ => True end) -> lq Q w (lift m).
Proof.
  intros H d G. specialize (H d G). unfold lift. destruct (m d) as [d' r]. cbn [fst snd] in H. destruct H as (H1 & H2 & H3). split; [exact H2|]. exists []. rewrite H1.
  split; [reflexivity|]. cbn [total]. change (len []) with 0. split; [lia|]. destruct r; auto.
Qed.
Lemma lq_ret {A} (x : A) w : w x <= 0 -> lq any w (lift (dret x)). Proof. intros H. apply lq_same. intros d G. split; [reflexivity|]. split; [exact G|]. split; [exact I|exact H]. Qed.
Lemma lq_fail {A} Q w e : lq Q w (lift (@dfail A e)). Proof. apply lq_same. intros d G. split; [reflexivity|]. split; [exact G|exact I]. Qed.
Lemma lq_fuel {A} Q w : lq Q w (lift (fun d => (d, @OutOfFuel A))). Proof. apply lq_same. intros d G. split; [reflexivity|]. split; [exact G|exact I]. Qed.
Lemma lq_read_bytes n : 0 <= n -> lq any w0 (a_read_bytes n).
Proof.
  intros Hn d G. unfold a_read_bytes, abind, make_, lift, read_bytes.
  assert (K : exists p, r_rest (d_r d) = p ++ r_rest (fst (read n (d_r d))) /\ len p <= n).
  { unfold read, r_rest. destruct (r_chunks (d_r d)) as [|c cs] eqn:E.
    - exists []. destruct (_ && _); cbn [fst]; rewrite E; (split; [reflexivity|]); change (len []) with 0; lia.
    - destruct (n =? 0); [exists []; cbn [fst]; rewrite E; split; [reflexivity|change (len []) with 0; lia]|]. destruct (Z.leb_spec (len c) n).
      + exists c. split; [reflexivity|lia].
      + exists (take c n). cbn [fst r_chunks concat]. rewrite app_assoc, take_drop. split; [reflexivity|]. unfold take, len. rewrite firstn_length. lia. }
  destruct K as (p & Hp & L). destruct (read n (d_r d)) as [r' [s|e| |]]; cbn [fst snd] in *; (split; [exact (fair_suffix _ _ _ G Hp)|]); exists p; cbn [set_r d_r app total]; (split; [exact Hp|]); (split; [lia|]); auto.
  destruct (len s =? n); [|exact I]. split; [exact I|unfold w0; lia].
Qed.
Lemma read_full_upto cs : forall e n acc, 0 <= n ->
  exists p, concat cs = p ++ concat (fst (read_full_chunks e n acc cs)) /\ len p <= n.
Proof.
  induction cs as [|c cs IH]; intros e n acc Hn; cbn [read_full_chunks]; [exists []; split; [reflexivity|change (len []) with 0; lia]|].
  destruct (Z.ltb_spec (len c) n).
  - destruct (IH e (n - len c) (acc ++ c) ltac:(lia)) as (p & Hp & L). exists (c ++ p). cbn [concat]. rewrite Hp at 1. rewrite app_assoc, len_app. split; [reflexivity|lia].
  - destruct (Z.eqb_spec (len c) n).
    + exists c. split; [reflexivity|lia].
    + exists (take c n). cbn [fst concat]. rewrite app_assoc, take_drop. split; [reflexivity|]. unfold take, len. rewrite firstn_length. lia.
Qed.
Lemma read_be_low n d : 0 < n -> fair d -> let '(d', r) := read_be n d in fair d' /\
  exists p, r_rest (d_r d) = p ++ r_rest (d_r d') /\ len p <= n /\ match r with Ok x => 0 <= x | _ => True end.
Proof.
  intros Hn G. unfold read_be, read_full.
  destruct (read_full_upto (r_chunks (d_r d)) (e_err (r_end (d_r d))) n [] ltac:(lia)) as (p & Hp & L).
  destruct (read_full_chunks_rest (r_chunks (d_r d)) (e_err (r_end (d_r d))) n []) as ((p' & Hp' & Hs) & _ & _).
  destruct (read_full_chunks (e_err (r_end (d_r d))) n [] (r_chunks (d_r d))) as [cs' [s|e| |]] eqn:E; cbn [fst snd] in *;
    (split; [exact (fair_suffix d (mkR cs' (r_end (d_r d)) (r_with (d_r d))) p G Hp)|]); exists p; cbn [set_r d_r]; (split; [exact Hp|]); (split; [exact L|]); auto.
  destruct (Hs s eq_refl) as [H1 _]. cbn [app] in H1. subst p'. destruct G as [G _]. unfold r_rest in G. rewrite Hp' in G. apply is_bytes_app in G.
  pose proof (be_val_bound s (proj1 G)). lia.
Qed.
Lemma lq_read_be n : 0 < n -> lq (fun v => 0 <= v) w0 (a_read_be n).
Proof.
  intros Hn d G. unfold a_read_be, abind, make_, lift. pose proof (read_be_low n d Hn G) as H. destruct (read_be n d) as [d' r]. destruct H as (G' & p & E & L & H).
  destruct r; (split; [exact G'|]); exists p; cbn [app total]; (split; [exact E|]); (split; [lia|]); auto. split; [exact H|unfold w0; lia].
Qed.
Lemma lq_read_into n : 0 <= n -> lq any w0 (a_read_into n).
Proof.
  intros Hn d G. pose proof (lq_read_bytes n Hn d G) as H. unfold a_read_into, a_read_bytes, abind, make_, lift, read_into, read_bytes in *.
  destruct (read n (d_r d)) as [r' [s|e| |]]; auto. destruct H as (G' & p & E & L & _). split; [exact G'|]. exists p. split; [exact E|]. split; [exact L|]. split; [exact I|unfold w0; lia].
Qed.
Lemma lq_read_byte : lq (fun b => 0 <= b) w0 a_read_byte.
Proof.
  intros d G. pose proof (lq_read_bytes 1 ltac:(lia) d G) as H. pose proof (er_read_bytes 1 d) as ER. unfold a_read_byte, abind. destruct (a_read_bytes 1 d) as [l [d' r]].
  destruct H as (G' & p & E & L & H). destruct r as [a0|e0| |]; try (split; [exact G'|]; exists p; split; [exact E|split; [exact L|exact I]]).
  cbn [lift dret fst snd]. split; [exact G'|]. exists p. rewrite app_nil_r. split; [exact E|]. split; [exact L|]. split; [|unfold w0; lia].
  cbn [snd] in ER. symmetry in ER. unfold read_bytes in ER. destruct (read_rest 1 (d_r d)) as (p' & Hp & Hs & _). destruct (read 1 (d_r d)) as [r' [s|e| |]]; cbn [fst snd] in *; try discriminate.
  specialize (Hs s eq_refl). subst p'. destruct (len s =? 1); [|discriminate]. assert (s = a0) by (inversion ER; reflexivity). destruct G as [G _]. rewrite Hp in G. apply is_bytes_app in G. destruct G as [G _].
  subst a0. unfold at_. destruct s as [|x s]; [apply Z.le_refl|]. apply (Forall_inv G).
Qed.
Lemma lq_next b : lq any w0 (a_next_byte_must_be b).
Proof. eapply lq_seq; [apply lq_read_byte|]. intros m _. destruct (m =? b); [apply lq_ret; unfold w0; lia|apply lq_fail]. Qed.
Lemma lq_u29 : lq (fun v => 0 <= v) w0 a_read_u29.
Proof.
  assert (R : forall v, lq (fun v => 0 <= v) w0 (lift (dret (u32 v)))).
  { intros v. apply lq_same. intros d G. split; [reflexivity|]. split; [exact G|]. split; [apply Z.mod_pos_bound; reflexivity|unfold w0; lia]. }
  unfold a_read_u29. eapply lq_seq; [apply lq_read_byte|]. intros b1 _. cbv zeta. destruct (_ =? 0); [apply R|].
  eapply lq_seq; [apply lq_read_byte|]. intros b2 _. destruct (_ =? 0); [apply R|].
  eapply lq_seq; [apply lq_read_byte|]. intros b3 _. destruct (_ =? 0); [apply R|].
  eapply lq_seq; [apply lq_read_byte|]. intros b4 _. apply R.
Qed.
Lemma lq_du29 : lq (fun x => 0 <= snd x) w0 a_decode_u29.
Proof.
  eapply lq_seq; [apply lq_u29|]. intros u Hu. apply lq_same. intros d G. split; [reflexivity|]. split; [exact G|]. split; [|unfold w0; lia].
  cbn [snd]. apply Z.shiftr_nonneg, Hu.
Qed.
Lemma fair_str3 x d : fair d -> fair (set_str3 x d). Proof. exact (fun H => H). Qed.
Lemma fair_heap x d : fair d -> fair (set_heap x d). Proof. exact (fun H => H). Qed.
Lemma fair_ref0 x d : fair d -> fair (set_ref0 x d). Proof. exact (fun H => H). Qed.
Lemma fair_push v d : fair d -> dense_of v = [] -> fair (fst (obj3_push v d)).
Proof. intros (H1 & H2 & H3) H. unfold obj3_push. cbn [fst]. split; [exact H1|]. split; [exact H2|]. cbn. apply Forall_app. split; [exact H3|]. constructor; [exact H|constructor]. Qed.
Ltac same := apply lq_same; intros d G; unfold w0.
Lemma lq_push v : dense_of v = [] -> lq any w0 (lift (obj3_push v)).
Proof. intros H. same. split; [reflexivity|]. split; [apply fair_push; assumption|]. split; [exact I|lia]. Qed.
Lemma lq_set loc k v : lq any w0 (lift (obj_set loc k v)). Proof. same. split; [reflexivity|]. split; [exact G|]. split; [exact I|lia]. Qed.
Lemma lq_alloc : lq any w0 (lift alloc). Proof. same. split; [reflexivity|]. split; [exact G|]. split; [exact I|lia]. Qed.
Lemma lq_push0 v : lq any w0 (lift (ref0_push v)). Proof. same. split; [reflexivity|]. split; [exact G|]. split; [exact I|lia]. Qed.
(** Bytes for the dense part of an array. *)
Definition wv (v : value) : Z := 16 * len (dense_of v).
Lemma lq_ref v (f : value -> Dm value) : 0 <= v -> (forall x, f x = dret x \/ exists e, f x = dfail e) -> lq any wv (lift (dbind (obj3_ref v) f)).
Proof.
  intros Hv Hf. same. unfold dbind, obj3_ref. destruct (Z.leb_spec (len (d_obj3 d)) v) as [L|L]; cbn [fst snd]; [split; [reflexivity|]; split; [exact G|exact I]|].
  set (x := nth (Z.to_nat v) (d_obj3 d) VNil). assert (X : wv x <= 0).
  { unfold wv. destruct G as (_ & _ & G). rewrite Forall_forall in G. rewrite (G x); [change (len []) with 0; lia|]. apply nth_In. unfold len in L. lia. }
  destruct (Hf x) as [-> | [e ->]]; cbn; (split; [reflexivity|]); (split; [exact G|]); auto. split; [exact I|exact X].
Qed.
Lemma lq_ref1 v : 0 <= v -> lq any wv (lift (obj3_ref v)).
Proof.
  intros Hv d G. pose proof (lq_ref v (fun x => dret x) Hv (fun x => or_introl eq_refl) d G) as H. unfold lift, dbind in *. destruct (obj3_ref v d) as [d' r]. destruct r; exact H.
Qed.
Lemma lq_string3 : lq any w0 a_decode_string3.
Proof.
  eapply lq_seq; [apply lq_du29|]. intros [[|] v] Hv; cbn [snd] in Hv.
  - same. destruct (_ <=? _); (split; [reflexivity|]); (split; [exact G|]); [exact I|]. split; [exact I|lia].
  - destruct (v =? 0); [apply lq_ret; unfold w0; lia|]. eapply lq_seq; [apply lq_read_bytes, Hv|]. intros s _. same. split; [reflexivity|]. split; [exact G|]. split; [exact I|lia].
Qed.
Lemma w0_weak {A} (Q : A -> Prop) w m : lq Q w m -> (forall x, Q x -> 0 <= w x) -> lq any w0 m.
Proof. intros H W. eapply lq_weak; [exact H|intros; exact I|exact W]. Qed.
Lemma wv_nonneg v : 0 <= wv v. Proof. unfold wv. pose proof (len_nonneg (dense_of v)). lia. Qed.
Lemma lq_make {B} (Q : B -> Prop) w v (k : unit -> Am B) : 0 <= v -> lq Q (fun y => w y - v) (k tt) -> lq Q w (abind (make_ v) k).
Proof.
  intros Hv H d G. specialize (H d G). unfold abind, make_. destruct (k tt d) as [l [d' r]]. destruct H as (G' & p & E & L & H). split; [exact G'|]. exists p. split; [exact E|].
  cbn [app total]. split; [lia|]. destruct r; auto. destruct H as [H1 H2]. split; [exact H1|lia].
Qed.
Ltac isref := apply lq_ref; [assumption|]; intros [| | | | | | | | | |]; cbn; first [left; reflexivity | right; eexists; reflexivity].
Lemma lq_date3 : lq any wv a_decode_date3.
Proof.
  eapply lq_seq; [apply lq_du29|]. intros [[|] v] Hv; cbn [snd] in Hv; [isref|].
  intros d G. unfold abind, make_, lift, dbind. pose proof (read_be_low 8 d ltac:(lia) G) as H. destruct (read_be 8 d) as [d' r]. destruct H as (G' & p & E & L & H).
  destruct r; cbn [app total]; try (split; [exact G'|]; exists p; split; [exact E|]; split; [lia|exact I]).
  unfold obj3_push, dret. split; [apply (fair_push (VTime _)); [exact G'|reflexivity]|]. exists p. split; [exact E|]. split; [lia|]. split; [exact I|]. unfold wv. cbn [dense_of]. change (len []) with 0. lia.
Qed.
Ltac ret := apply lq_ret; unfold w0, wv; cbn [dense_of]; try change (len []) with 0; lia.
Lemma lq_pushed (v : value) : dense_of v = [] -> lq any wv (lift (dbind (obj3_push v) (fun _ => dret v))).
Proof. intros H. same. split; [reflexivity|]. split; [apply (fair_push v); assumption|]. split; [exact I|]. unfold wv. rewrite H. change (len []) with 0. lia. Qed.
Lemma lq_xml3 : lq any wv a_decode_xmldoc3.
Proof.
  eapply lq_seq; [apply lq_du29|]. intros [[|] v] Hv; cbn [snd] in Hv; [isref|]. destruct (v =? 0); [ret|].
  eapply lq_seq; [apply lq_read_into, Hv|]. intros s _. apply lq_pushed. reflexivity.
Qed.
Lemma lq_bytes3 : lq any wv a_decode_bytearray3.
Proof.
  eapply lq_seq; [apply lq_du29|]. intros [[|] v] Hv; cbn [snd] in Hv; [isref|]. destruct (v =? 0); [ret|].
  eapply lq_seq; [apply lq_read_into, Hv|]. intros s _. apply lq_pushed. reflexivity.
Qed.
Lemma lq_loop {A} (m : Am A) : lq any w0 m -> forall f n, 0 <= n -> lq (fun xs => len xs = n) w0 (a_loop_n m f n).
Proof.
  intros H. induction f as [|f IH]; intros n Hn; cbn [a_loop_n]; destruct (Z.leb_spec n 0).
  - same. split; [reflexivity|]. split; [exact G|]. split; [change (len []) with 0; lia|lia].
  - apply lq_fuel.
  - same. split; [reflexivity|]. split; [exact G|]. split; [change (len []) with 0; lia|lia].
  - eapply lq_seq; [exact H|]. intros x _. eapply lq_seq; [apply IH; lia|]. intros xs Hxs. cbn beta in Hxs. same. split; [reflexivity|]. split; [exact G|]. split; [rewrite len_cons; lia|lia].
Qed.
Lemma lq_assoc m : lq any w0 m -> forall f loc k, lq any w0 (a_assoc_loop m f loc k).
Proof.
  intros H. induction f as [|f IH]; intros loc [|x k]; cbn [a_assoc_loop]; try ret; try apply lq_fuel.
  eapply lq_seq; [exact H|intros ? _]. eapply lq_seq; [apply lq_set|intros ? _]. eapply lq_seq; [apply lq_string3|intros ? _]. apply IH.
Qed.
Lemma lq_array3 m f : lq any w0 m -> lq any wv (a_decode_array3 m f).
Proof.
  intros H. eapply lq_seq; [apply lq_du29|]. intros [[|] v] Hv; cbn [snd] in Hv; [isref|].
  eapply lq_seq; [apply lq_string3|intros ? _]. eapply lq_seq; [apply lq_push; reflexivity|intros ? _]. eapply lq_seq; [apply lq_alloc|intros ? _]. apply lq_make; [lia|].
  eapply lq_seq; [apply lq_assoc, H|intros ? _]. eapply lq_seq; [apply lq_loop; [exact H|exact Hv]|intros xs Hxs]. cbn beta in Hxs. apply lq_ret. unfold wv. cbn [dense_of]. lia.
Qed.
Lemma lq_props m : lq any w0 m -> forall ks loc, lq any w0 (a_props_loop m loc ks).
Proof.
  intros H. induction ks as [|k ks IH]; intros loc; cbn; [ret|]. eapply lq_seq; [exact H|intros ? _]. eapply lq_seq; [apply lq_set|intros ? _]. apply IH.
Qed.
Lemma lq_dyn m : lq any w0 m -> forall f loc, lq any w0 (a_dyn_loop m f loc).
Proof.
  intros H. induction f as [|f IH]; intros loc; cbn; [apply lq_fuel|]. eapply lq_seq; [apply lq_string3|]. intros [|x k] _; [ret|].
  eapply lq_seq; [exact H|intros ? _]. eapply lq_seq; [apply lq_set|intros ? _]. apply IH.
Qed.
Lemma lq_trait f v : 0 <= v -> lq (fun t => t_ext t = false) w0 (a_decode_trait f v).
Proof.
  intros Hv. unfold a_decode_trait. destruct (Z.land v 1 =? 0).
  - same. cbv zeta. destruct (_ <=? _) eqn:L; (split; [reflexivity|]); (split; [exact G|]); [exact I|]. split; [|lia]. destruct G as (_ & G & _). rewrite Forall_forall in G. apply G, nth_In.
    pose proof (proj2 (Z.shiftr_nonneg v 1) Hv). apply Z.leb_gt in L. unfold len in L. lia.
  - cbv zeta. assert (EX : (Z.land v 2 =? 1) = false).
    { apply Z.eqb_neq. intros Q. apply (f_equal Z.odd) in Q. rewrite <- !Z.bit0_odd, Z.land_spec in Q. rewrite andb_false_r in Q. discriminate. }
    rewrite EX. pose proof (proj2 (Z.shiftr_nonneg v 3) Hv). eapply lq_seq; [apply lq_string3|intros ty _]. apply lq_make; [lia|].
    eapply lq_seq; [apply lq_loop; [apply lq_string3|lia]|intros props _]. same. split; [reflexivity|]. split; [|split; [reflexivity|lia]].
    destruct G as (G1 & G2 & G3). split; [exact G1|]. split; [|exact G3]. cbn. apply Forall_app. split; [exact G2|]. constructor; [reflexivity|constructor].
Qed.
Lemma lq_object3 m n f : lq any w0 m -> lq any wv (a_decode_object3 m n f).
Proof.
  intros H. eapply lq_seq; [apply lq_du29|]. intros [[|] v] Hv; cbn [snd] in Hv; [apply lq_ref1, Hv|].
  eapply lq_seq; [apply lq_trait, Hv|intros t Ht]. eapply lq_seq; [apply lq_push; reflexivity|intros ? _]. rewrite Ht. eapply lq_seq; [apply lq_alloc|intros ? _].
  eapply lq_seq; [apply lq_props, H|intros ? _]. eapply lq_seq; [destruct (t_dyn t); [apply lq_dyn, H|ret]|intros ? _]. ret.
Qed.
Lemma lq_dec3 f : lq any wv (a_dec3 f).
Proof.
  induction f as [|f IH]; cbn [a_dec3]; [apply lq_fuel|]. eapply lq_seq; [apply lq_read_byte|intros m _].
  assert (IH0 : lq any w0 (a_dec3 f)) by (eapply w0_weak; [exact IH|intros; apply wv_nonneg]).
  repeat (match goal with |- lq _ _ (if ?c then _ else _) => destruct c end;
    [first [ret | apply lq_xml3 | apply lq_date3 | apply lq_bytes3 | apply lq_array3, IH0 | apply lq_object3, IH0
           | eapply lq_seq; [first [apply lq_u29 | apply lq_read_be; lia | apply lq_string3]|intros ? _; ret]]|]). apply lq_fail.
Qed.
Lemma lq_string0 : lq any w0 a_decode_string0.
Proof. eapply lq_seq; [apply lq_read_be; lia|intros n Hn; apply lq_read_bytes, Hn]. Qed.
Lemma lq_longstring0 : lq any w0 a_decode_longstring0.
Proof. eapply lq_seq; [apply lq_read_be; lia|intros n Hn; apply lq_read_bytes, Hn]. Qed.
Lemma lq_obj_loop m : lq any w0 m -> forall f loc, lq any w0 (a_obj_loop m f loc).
Proof.
  intros H. induction f as [|f IH]; intros loc; cbn [a_obj_loop]; [apply lq_fuel|]. eapply lq_seq; [apply lq_string0|]. intros [|x k] _; [apply lq_next|].
  eapply lq_seq; [exact H|intros ? _]. eapply lq_seq; [apply lq_set|intros ? _]. apply IH.
Qed.
Lemma lq_object0 m f : lq any w0 m -> lq any w0 (a_decode_object0 m f).
Proof.
  intros H. eapply lq_seq; [apply lq_alloc|intros ? _]. eapply lq_seq; [apply lq_push0|intros ? _]. eapply lq_seq; [apply lq_obj_loop, H|intros ? _]. ret.
Qed.
Lemma lq_dec0 f : lq any w0 (a_dec0 f).
Proof.
  induction f as [|f IH]; cbn [a_dec0]; [apply lq_fuel|]. eapply lq_seq; [apply lq_read_byte|intros m _].
  repeat (match goal with |- lq _ _ (if ?c then _ else _) => destruct c end;
    [first [ret | apply lq_fail
           | eapply lq_seq; [first [apply lq_read_be; lia | apply lq_read_byte | apply lq_string0 | apply lq_longstring0 | apply lq_object0, IH]|intros ? _; ret]
           | idtac]|]); try apply lq_fail.
  - eapply lq_seq; [apply lq_read_be; lia|intros ref _]. same. repeat match goal with |- context [if ?c then _ else _] => destruct c end; (split; [reflexivity|]); (split; [exact G|]); try exact I. split; [exact I|lia].
  - eapply lq_seq; [apply lq_read_be; lia|intros ? _]. eapply lq_seq; [apply lq_object0, IH|intros ? _]. ret.
  - eapply lq_seq; [apply lq_read_be; lia|intros n Hn]. eapply lq_seq; [apply lq_push0|intros ? _]. eapply lq_seq; [apply lq_loop; [exact IH|exact Hn]|intros ? _]. ret.
  - eapply lq_seq; [apply lq_read_be; lia|intros ? _]. eapply lq_seq; [apply lq_read_bytes; lia|intros ? _]. ret.
  - eapply lq_seq; [apply lq_push0|intros ? _]. eapply lq_seq; [apply lq_string0|intros ? _]. eapply lq_seq; [apply lq_object0, IH|intros ? _]. ret.
  - eapply w0_weak; [apply lq_dec3|intros; apply wv_nonneg].
Qed.
