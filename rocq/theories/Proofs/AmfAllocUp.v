(** The other side of Proofs/AmfAllocLow.v: how much the logs of Model/AmfAlloc.v can come to, for every byte read. *)
From Verif Require Import Base.Go Base.GoFacts Base.IO Base.Float64 Proofs.IOFacts Model.AmfTypes Model.Amf3 Model.Amf0 Model.AmfAlloc Spec.AmfAlloc
  Proofs.AmfFacts Proofs.AmfContr Proofs.AmfTame Proofs.AmfTerm Proofs.AmfAlloc Proofs.AmfAllocLow.
Local Open Scope Z_scope.

Notation K := 1073741825.
(** [D]: bytes that have been paid for by what was read before; [c]: those that are left for what comes next. *)
Definition uq {A} (D : Z) (Q : A -> Prop) (c : A -> Z) (m : Am A) : Prop := forall d, fair d ->
  let '(l, (d', r)) := m d in fair d' /\
  exists p, r_rest (d_r d) = p ++ r_rest (d_r d') /\ match r with Ok x => Q x /\ total l + c x <= K * len p + D | _ => total l <= K * len p + D + 8 end.
Lemma uq_bind {A B} D Q c (R : B -> Prop) c' (m : Am A) (k : A -> Am B) : uq D Q c m -> (forall x, Q x -> uq (c x) R c' (k x)) -> uq D R c' (abind m k).
Proof.
  intros Hm Hk d G. specialize (Hm d G). unfold abind. destruct (m d) as [l [d1 [x|er| |]]]; destruct Hm as (G1 & p & E & H);
    try (split; [exact G1|]; exists p; split; [exact E|exact H]).
  destruct H as [HQ H]. specialize (Hk x HQ d1 G1). destruct (k x d1) as [l' [d2 r]]. destruct Hk as (G2 & p2 & E2 & H2). split; [exact G2|].
  exists (p ++ p2). rewrite E, E2, app_assoc. split; [reflexivity|]. rewrite total_app, len_app. destruct r; [destruct H2 as [H2 H3]; split; [exact H2|]|..]; lia.
Qed.
Lemma uq_weak {A} D D' (Q Q' : A -> Prop) c c' m : uq D Q c m -> (forall x, Q x -> Q' x) -> (forall x, Q x -> c' x - D' <= c x - D) -> D <= D' -> uq D' Q' c' m.
Proof.
  intros Hm HQ HC HD d G. specialize (Hm d G). destruct (m d) as [l [d' r]]. destruct Hm as (G' & p & E & H). split; [exact G'|]. exists p. split; [exact E|].
  destruct r; try lia. destruct H as [H1 H2]. split; [auto|]. specialize (HC a H1). lia.
Qed.
(** What is paid for can wait. *)
Lemma uq_wait {A B} D Q (R : B -> Prop) c (m : Am A) (k : A -> Am B) : 0 <= D -> uq 0 Q w0 m -> (forall x, Q x -> uq D R c (k x)) -> uq D R c (abind m k).
Proof.
  intros HD Hm Hk. apply (uq_bind D Q (fun _ => D)); [|exact Hk]. eapply uq_weak; [exact Hm|auto|unfold w0; intros; lia|exact HD].
Qed.
Lemma uq_seq {A B} Q c (R : B -> Prop) c' (m : Am A) (k : A -> Am B) : uq 0 Q c m -> (forall x, Q x -> 0 <= c x) -> (forall x, Q x -> uq 0 R c' (k x)) -> uq 0 R c' (abind m k).
Proof.
  intros Hm HC Hk. apply (uq_wait 0 Q); [lia| |exact Hk]. eapply uq_weak; [exact Hm|auto|unfold w0; intros x Hx; specialize (HC x Hx); lia|lia].
Qed.
Lemma uq_same {A} D (Q : A -> Prop) c (m : Dm A) : 0 <= D -> (forall d, fair d -> d_r (fst (m d)) = d_r d /\ fair (fst (m d)) /\ match snd (m d) with Ok x => Q x /\ c x <= D | _ => True end) -> uq D Q c (lift m).
Proof.
  intros HD H d G. specialize (H d G). unfold lift. destruct (m d) as [d' r]. cbn [fst snd] in H. destruct H as (H1 & H2 & H3). split; [exact H2|]. exists []. rewrite H1.
  split; [reflexivity|]. cbn [total]. change (len []) with 0. destruct r; try lia. destruct H3 as [H3 H4]. split; [exact H3|lia].
Qed.
Lemma uq_ret {A} D (x : A) c : 0 <= D -> c x <= D -> uq D any c (lift (dret x)). Proof. intros HD H. apply uq_same; [exact HD|]. intros d G. split; [reflexivity|]. split; [exact G|]. split; [exact I|exact H]. Qed.
Lemma uq_fail {A} D Q c e : 0 <= D -> uq D Q c (lift (@dfail A e)). Proof. intros HD. apply uq_same; [exact HD|]. intros d G. split; [reflexivity|]. split; [exact G|exact I]. Qed.
Lemma uq_fuel {A} D Q c : 0 <= D -> uq D Q c (lift (fun d => (d, @OutOfFuel A))). Proof. intros HD. apply uq_same; [exact HD|]. intros d G. split; [reflexivity|]. split; [exact G|exact I]. Qed.
Lemma uq_make {B} D (Q : B -> Prop) c v (k : unit -> Am B) : uq (D - v) Q c (k tt) -> uq D Q c (abind (make_ v) k).
Proof.
  intros H d G. specialize (H d G). unfold abind, make_. destruct (k tt d) as [l [d' r]]. destruct H as (G' & p & E & H). split; [exact G'|]. exists p. split; [exact E|].
  cbn [app total]. destruct r; try lia. destruct H as [H1 H2]. split; [exact H1|lia].
Qed.
Lemma uq_read_bytes n D : 0 <= n <= D -> uq D any w0 (a_read_bytes n).
Proof.
  intros Hn d G. pose proof (lq_read_bytes n ltac:(lia) d G) as H. unfold a_read_bytes, abind, make_, lift in *. destruct (read_bytes n d) as [d' r].
  destruct H as (G' & p & E & _). split; [exact G'|]. exists p. split; [exact E|]. cbn [app total]. pose proof (len_nonneg p). unfold w0. destruct r; try lia. split; [exact I|lia].
Qed.
Lemma uq_read_into n D : 0 <= n <= D -> uq D any w0 (a_read_into n).
Proof.
  intros Hn d G. pose proof (lq_read_into n ltac:(lia) d G) as H. unfold a_read_into, abind, make_, lift in *. destruct (read_into n d) as [d' r].
  destruct H as (G' & p & E & _). split; [exact G'|]. exists p. split; [exact E|]. cbn [app total]. pose proof (len_nonneg p). unfold w0. destruct r; try lia. split; [exact I|lia].
Qed.
(** A short read that succeeds has read its bytes. *)
Lemma uq_short n : 0 <= n <= 8 -> uq 0 (fun s => len s = n /\ is_bytes s) (fun _ => 1073741824 * n) (a_read_bytes n).
Proof.
  intros Hn d G. pose proof (lq_read_bytes n ltac:(lia) d G) as H. unfold a_read_bytes, abind, make_, lift in *. destruct (read_rest n (d_r d)) as (p' & Hp' & Hs & _).
  unfold read_bytes in *. destruct (read n (d_r d)) as [r' [s|e| |]]; cbn [fst snd] in *; destruct H as (G' & p & E & _);
    try (split; [exact G'|]; exists p; split; [exact E|]; cbn [app total]; pose proof (len_nonneg p); lia).
  split; [exact G'|]. specialize (Hs s eq_refl). subst p'. exists s. split; [exact Hp'|]. cbn [app total]. pose proof (len_nonneg s). destruct (Z.eqb_spec (len s) n); [|lia].
  split; [|lia]. split; [assumption|]. destruct G as [G _]. rewrite Hp' in G. apply is_bytes_app in G. apply G.
Qed.
Lemma uq_read_byte : uq 0 (fun b => 0 <= b < 256) (fun _ => 1073741824) a_read_byte.
Proof.
  eapply uq_bind; [apply (uq_short 1); lia|]. intros s [H1 H2]. cbv beta. apply uq_same; [lia|]. intros d G. split; [reflexivity|]. split; [exact G|]. cbn [dret snd]. split; [|lia].
  destruct s as [|x s]; [discriminate|]. exact (Forall_inv H2).
Qed.
Lemma uq_read_be n : 0 < n <= 8 -> uq 0 (fun v => 0 <= v < 256 ^ n) (fun _ => 1073741824 * n) (a_read_be n).
Proof.
  intros Hn d G. pose proof (lq_read_be n ltac:(lia) d G) as H. unfold a_read_be, abind, make_, lift in *. unfold read_be, read_full in *.
  destruct (read_full_chunks_rest (r_chunks (d_r d)) (e_err (r_end (d_r d))) n []) as ((p' & Hp' & Hs) & _ & _).
  destruct (read_full_chunks (e_err (r_end (d_r d))) n [] (r_chunks (d_r d))) as [cs' [s|e| |]] eqn:E0; cbn [fst snd] in *; destruct H as (G' & p & E & _);
    try (split; [exact G'|]; exists p; split; [exact E|]; cbn [app total]; pose proof (len_nonneg p); lia).
  split; [exact G'|]. destruct (Hs s eq_refl) as [H1 Hl]. cbn [app] in H1. subst p'. assert (L : len s = n) by (apply Hl; [|lia]; intros Hc; rewrite Hc in E0; discriminate).
  exists s. split; [exact Hp'|]. cbn [app total]. split; [|lia]. destruct G as [G _]. unfold r_rest in G. rewrite Hp' in G. apply is_bytes_app in G. rewrite <- L. apply be_val_bound, G.
Qed.
Lemma uq_next b : uq 0 any w0 (a_next_byte_must_be b).
Proof. eapply uq_seq; [apply uq_read_byte|intros; lia|]. intros m _. destruct (m =? b); [apply uq_ret; unfold w0; lia|apply uq_fail; lia]. Qed.
Lemma land127 b : 0 <= Z.land b 127 < 128.
Proof. change 127 with (Z.ones 7). rewrite Z.land_ones by lia. apply Z.mod_pos_bound. reflexivity. Qed.
Lemma uq_u29 : uq 0 (fun v => 0 <= v < 536870912) (fun v => 8 * v) a_read_u29.
Proof.
  assert (R : forall D v b, 0 <= D -> 0 <= v < b -> 8 * b <= D + 8 -> b <= 536870912 -> uq D (fun v => 0 <= v < 536870912) (fun v => 8 * v) (lift (dret v))).
  { intros D v b HD Hv Hb Hb2. apply uq_same; [exact HD|]. intros d G. split; [reflexivity|]. split; [exact G|]. cbn [dret snd]. split; lia. }
  assert (N : forall D (k : Z -> Am Z), 0 <= D -> (forall b, 0 <= b < 256 -> uq (D + 1073741824) (fun v => 0 <= v < 536870912) (fun v => 8 * v) (k b)) ->
    uq D (fun v => 0 <= v < 536870912) (fun v => 8 * v) (abind a_read_byte k)).
  { intros D k HD Hk. apply (uq_bind D (fun b => 0 <= b < 256) (fun _ => D + 1073741824)); [|exact Hk]. eapply uq_weak; [apply uq_read_byte|auto|intros; cbv beta; lia|exact HD]. }
  unfold a_read_u29, u32. apply N; [lia|]. intros b1 _. cbv zeta. generalize (land127 b1); generalize (Z.land b1 127); intros x1 L1.
  rewrite Z.shiftl_0_l. rewrite (Z.mod_small (0 + x1)) by lia. destruct (_ =? 0); [apply (R _ _ 128); lia|].
  apply N; [lia|]. intros b2 _. generalize (land127 b2); generalize (Z.land b2 127); intros x2 L2.
  rewrite !Z.shiftl_mul_pow2 by lia. change (2 ^ 7) with 128. rewrite (Z.mod_small ((0 + x1) * 128 + x2)) by lia. destruct (_ =? 0); [apply (R _ _ 16384); lia|].
  apply N; [lia|]. intros b3 _. generalize (land127 b3); generalize (Z.land b3 127); intros x3 L3.
  rewrite (Z.mod_small (((0 + x1) * 128 + x2) * 128 + x3)) by lia. destruct (_ =? 0); [apply (R _ _ 2097152); lia|].
  apply N; [lia|]. intros b4 H4. rewrite Z.shiftl_mul_pow2 by lia. change (2 ^ 8) with 256. rewrite Z.mod_small by lia. apply (R _ _ 536870912); lia.
Qed.
Lemma uq_du29 : uq 0 (fun x => 0 <= snd x < 268435456) (fun x => 16 * snd x) a_decode_u29.
Proof.
  eapply uq_bind; [apply uq_u29|]. intros u Hu. cbv beta in *. apply uq_same; [lia|]. intros d G. split; [reflexivity|]. split; [exact G|]. cbn [dret snd].
  rewrite Z.shiftr_div_pow2 by lia. change (2 ^ 1) with 2. pose proof (Z.mul_div_le u 2 eq_refl). pose proof (Z.div_pos u 2). split; [|lia]. split; [lia|].
  apply Z.div_lt_upper_bound; lia.
Qed.
Ltac usame := apply uq_same; [lia|]; intros d G; unfold w0.
Lemma uq_push D v : 0 <= D -> dense_of v = [] -> uq D any w0 (lift (obj3_push v)).
Proof. intros HD H. usame. split; [reflexivity|]. split; [apply fair_push; assumption|]. split; [exact I|lia]. Qed.
Lemma uq_set D loc k v : 0 <= D -> uq D any w0 (lift (obj_set loc k v)). Proof. intros. usame. split; [reflexivity|]. split; [exact G|]. split; [exact I|lia]. Qed.
Lemma uq_alloc D : 0 <= D -> uq D any w0 (lift alloc). Proof. intros. usame. split; [reflexivity|]. split; [exact G|]. split; [exact I|lia]. Qed.
Lemma uq_push0 D v : 0 <= D -> uq D any w0 (lift (ref0_push v)). Proof. intros. usame. split; [reflexivity|]. split; [exact G|]. split; [exact I|lia]. Qed.
Lemma uq_ref D v (f : value -> Dm value) : 0 <= D -> (forall x, f x = dret x \/ exists e, f x = dfail e) -> uq D any w0 (lift (dbind (obj3_ref v) f)).
Proof.
  intros HD Hf. usame. unfold dbind, obj3_ref. destruct (Z.leb_spec (len (d_obj3 d)) v) as [L|L]; cbn [fst snd]; [split; [reflexivity|]; split; [exact G|exact I]|].
  destruct (Hf (nth (Z.to_nat v) (d_obj3 d) VNil)) as [-> | [e ->]]; cbn; (split; [reflexivity|]); (split; [exact G|]); auto. split; [exact I|lia].
Qed.
Lemma uq_ref1 D v : 0 <= D -> uq D any w0 (lift (obj3_ref v)).
Proof.
  intros HD d G. pose proof (uq_ref D v (fun x => dret x) HD (fun x => or_introl eq_refl) d G) as H. unfold lift, dbind in *. destruct (obj3_ref v d) as [d' r]. destruct r; exact H.
Qed.
Lemma uq_string3 : uq 0 any w0 a_decode_string3.
Proof.
  eapply uq_bind; [apply uq_du29|]. intros [[|] v] Hv; cbn [snd] in *.
  - usame. destruct (_ <=? _); (split; [reflexivity|]); (split; [exact G|]); [exact I|]. split; [exact I|lia].
  - destruct (v =? 0); [apply uq_ret; unfold w0; lia|]. eapply uq_bind; [apply uq_read_bytes; lia|]. intros s _. unfold w0. usame. split; [reflexivity|]. split; [exact G|]. split; [exact I|lia].
Qed.
Ltac uisref := apply uq_ref; [lia|]; intros [| | | | | | | | | |]; cbn; first [left; reflexivity | right; eexists; reflexivity].
Ltac uret := apply uq_ret; unfold w0; lia.
Lemma uq_date3 : uq 0 any w0 a_decode_date3.
Proof.
  eapply uq_bind; [apply uq_du29|]. intros [[|] v] Hv; cbn [snd] in *; [uisref|].
  intros d G. pose proof (uq_read_be 8 ltac:(lia) d G) as U. unfold a_read_be, abind, make_, lift, dbind in *. destruct (read_be 8 d) as [d' r]. destruct U as (G' & p & E & H).
  destruct r; cbn [app total] in *; try (split; [exact G'|]; exists p; split; [exact E|]; lia).
  unfold obj3_push, dret. split; [apply (fair_push (VTime _)); [exact G'|reflexivity]|]. exists p. split; [exact E|]. split; [exact I|unfold w0; lia].
Qed.
Lemma uq_pushed D (v : value) : 0 <= D -> dense_of v = [] -> uq D any w0 (lift (dbind (obj3_push v) (fun _ => dret v))).
Proof. intros HD H. usame. split; [reflexivity|]. split; [apply (fair_push v); assumption|]. split; [exact I|lia]. Qed.
Lemma uq_xml3 : uq 0 any w0 a_decode_xmldoc3.
Proof.
  eapply uq_bind; [apply uq_du29|]. intros [[|] v] Hv; cbn [snd] in *; [uisref|]. destruct (v =? 0); [uret|].
  eapply uq_bind; [apply uq_read_into; lia|]. intros s _. apply uq_pushed; [unfold w0; lia|reflexivity].
Qed.
Lemma uq_bytes3 : uq 0 any w0 a_decode_bytearray3.
Proof.
  eapply uq_bind; [apply uq_du29|]. intros [[|] v] Hv; cbn [snd] in *; [uisref|]. destruct (v =? 0); [uret|].
  eapply uq_bind; [apply uq_read_into; lia|]. intros s _. apply uq_pushed; [unfold w0; lia|reflexivity].
Qed.
Ltac then0 H := eapply (uq_wait 0); [lia|eapply uq_weak; [exact H|intros; exact I|unfold w0; intros; lia|lia]|intros ? _].
Lemma uq_loop {A} (m : Am A) : uq 0 any w0 m -> forall f n, uq 0 any w0 (a_loop_n m f n).
Proof.
  intros H. induction f as [|f IH]; intros n; cbn [a_loop_n]; destruct (n <=? 0); try uret; [apply uq_fuel; lia|]. then0 H. then0 (IH (n - 1)). uret.
Qed.
Lemma uq_assoc m : uq 0 any w0 m -> forall f loc k, uq 0 any w0 (a_assoc_loop m f loc k).
Proof.
  intros H. induction f as [|f IH]; intros loc [|x k]; cbn [a_assoc_loop]; try uret; try (apply uq_fuel; lia).
  then0 H. then0 (uq_set 0 loc (x :: k) x0 ltac:(lia)). then0 uq_string3. apply IH.
Qed.
Lemma uq_array3 m f : uq 0 any w0 m -> uq 0 any w0 (a_decode_array3 m f).
Proof.
  intros H. eapply uq_bind; [apply uq_du29|]. intros [[|] v] Hv; cbn [snd] in *; [uisref|].
  eapply uq_wait; [lia|apply uq_string3|intros ? _]. eapply uq_wait; [lia|apply uq_push; [lia|reflexivity]|intros ? _]. eapply uq_wait; [lia|apply uq_alloc; lia|intros ? _].
  apply uq_make. rewrite Z.sub_diag. eapply uq_wait; [lia|apply uq_assoc, H|intros ? _]. eapply uq_wait; [lia|apply uq_loop, H|intros ? _]. uret.
Qed.
Lemma uq_props m : uq 0 any w0 m -> forall ks loc, uq 0 any w0 (a_props_loop m loc ks).
Proof.
  intros H. induction ks as [|k ks IH]; intros loc; cbn; [uret|]. eapply uq_wait; [lia|exact H|intros ? _]. eapply uq_wait; [lia|apply uq_set; lia|intros ? _]. apply IH.
Qed.
Lemma uq_dyn m : uq 0 any w0 m -> forall f loc, uq 0 any w0 (a_dyn_loop m f loc).
Proof.
  intros H. induction f as [|f IH]; intros loc; cbn; [apply uq_fuel; lia|]. eapply uq_wait; [lia|apply uq_string3|]. intros [|x k] _; [uret|].
  eapply uq_wait; [lia|exact H|intros ? _]. eapply uq_wait; [lia|apply uq_set; lia|intros ? _]. apply IH.
Qed.
Lemma uq_trait f v : 0 <= v -> uq (16 * v) (fun t => t_ext t = false) w0 (a_decode_trait f v).
Proof.
  intros Hv. unfold a_decode_trait. destruct (Z.land v 1 =? 0).
  - usame. cbv zeta. destruct (_ <=? _) eqn:L; (split; [reflexivity|]); (split; [exact G|]); [exact I|]. split; [|lia]. destruct G as (_ & G & _). rewrite Forall_forall in G. apply G, nth_In.
    pose proof (proj2 (Z.shiftr_nonneg v 1) Hv). apply Z.leb_gt in L. unfold len in L. lia.
  - cbv zeta. assert (EX : (Z.land v 2 =? 1) = false).
    { apply Z.eqb_neq. intros Q. apply (f_equal Z.odd) in Q. rewrite <- !Z.bit0_odd, Z.land_spec in Q. rewrite andb_false_r in Q. discriminate. }
    rewrite EX. assert (LE : 0 <= Z.shiftr v 3 <= v).
    { rewrite Z.shiftr_div_pow2 by lia. change (2 ^ 3) with 8. split; [apply Z.div_pos; lia|]. apply Z.div_le_upper_bound; lia. }
    eapply uq_wait; [lia|apply uq_string3|intros ty _]. apply uq_make. apply (uq_weak 0 _ (fun t => t_ext t = false) _ w0); [|auto|unfold w0; intros; lia|lia].
    eapply uq_wait; [lia|apply uq_loop, uq_string3|intros props _]. usame. split; [reflexivity|]. split; [|split; [reflexivity|lia]].
    destruct G as (G1 & G2 & G3). split; [exact G1|]. split; [|exact G3]. cbn. apply Forall_app. split; [exact G2|]. constructor; [reflexivity|constructor].
Qed.
Lemma uq_object3 m n f : uq 0 any w0 m -> uq 0 any w0 (a_decode_object3 m n f).
Proof.
  intros H. eapply uq_bind; [apply uq_du29|]. intros [[|] v] Hv; cbn [snd] in *; [apply uq_ref1; lia|].
  eapply uq_bind; [apply uq_trait; lia|intros t Ht]. unfold w0 at 1. eapply uq_wait; [lia|apply uq_push; [lia|reflexivity]|intros ? _]. rewrite Ht. eapply uq_wait; [lia|apply uq_alloc; lia|intros ? _].
  eapply uq_wait; [lia|apply uq_props, H|intros ? _]. eapply uq_wait; [lia|destruct (t_dyn t); [apply uq_dyn, H|uret]|intros ? _]. uret.
Qed.
Ltac first_byte := eapply uq_seq; [apply uq_read_byte|intros; lia|intros m _].
Lemma uq_be n : 0 < n <= 8 -> uq 0 any w0 (a_read_be n).
Proof. intros H. eapply uq_weak; [apply uq_read_be, H|intros; exact I|unfold w0; intros; lia|lia]. Qed.
Lemma uq_byte : uq 0 any w0 a_read_byte.
Proof. eapply uq_weak; [apply uq_read_byte|intros; exact I|unfold w0; intros; lia|lia]. Qed.
Lemma uq_u29' : uq 0 any w0 a_read_u29.
Proof. eapply uq_weak; [apply uq_u29|intros; exact I|unfold w0; intros; lia|lia]. Qed.
Lemma uq_dec3 f : uq 0 any w0 (a_dec3 f).
Proof.
  induction f as [|f IH]; cbn [a_dec3]; [apply uq_fuel; lia|]. first_byte.
  repeat (match goal with |- uq _ _ _ (if ?c then _ else _) => destruct c end;
    [first [uret | apply uq_xml3 | apply uq_date3 | apply uq_bytes3 | apply uq_array3, IH | apply uq_object3, IH
           | eapply uq_wait; [lia|first [apply uq_u29' | apply uq_be; lia | apply uq_string3]|intros ? _; uret]]|]). apply uq_fail; lia.
Qed.
Lemma uq_string0 : uq 0 any w0 a_decode_string0.
Proof. eapply uq_bind; [apply uq_read_be; lia|intros n Hn; cbv beta in *; change (256 ^ 2) with 65536 in Hn; apply uq_read_bytes; lia]. Qed.
Lemma uq_longstring0 : uq 0 any w0 a_decode_longstring0.
Proof. eapply uq_bind; [apply uq_read_be; lia|intros n Hn; cbv beta in *; change (256 ^ 4) with 4294967296 in Hn; apply uq_read_bytes; lia]. Qed.
Lemma uq_obj_loop m : uq 0 any w0 m -> forall f loc, uq 0 any w0 (a_obj_loop m f loc).
Proof.
  intros H. induction f as [|f IH]; intros loc; cbn [a_obj_loop]; [apply uq_fuel; lia|]. eapply uq_wait; [lia|apply uq_string0|]. intros [|x k] _; [apply uq_next|].
  eapply uq_wait; [lia|exact H|intros ? _]. eapply uq_wait; [lia|apply uq_set; lia|intros ? _]. apply IH.
Qed.
Lemma uq_object0 m f : uq 0 any w0 m -> uq 0 any w0 (a_decode_object0 m f).
Proof.
  intros H. eapply uq_wait; [lia|apply uq_alloc; lia|intros ? _]. eapply uq_wait; [lia|apply uq_push0; lia|intros ? _]. eapply uq_wait; [lia|apply uq_obj_loop, H|intros ? _]. uret.
Qed.
Lemma uq_dec0 f : uq 0 any w0 (a_dec0 f).
Proof.
  induction f as [|f IH]; cbn [a_dec0]; [apply uq_fuel; lia|]. first_byte.
  repeat (match goal with |- uq _ _ _ (if ?c then _ else _) => destruct c end;
    [first [uret | apply uq_fail; lia
           | eapply uq_wait; [lia|first [apply uq_be; lia | apply uq_byte | apply uq_string0 | apply uq_longstring0 | apply uq_object0, IH]|intros ? _; uret]
           | idtac]|]); try (apply uq_fail; lia).
  - eapply uq_wait; [lia|apply uq_be; lia|intros ref _]. usame. repeat match goal with |- context [if ?c then _ else _] => destruct c end; (split; [reflexivity|]); (split; [exact G|]); try exact I. split; [exact I|lia].
  - eapply uq_wait; [lia|apply uq_be; lia|intros ? _]. eapply uq_wait; [lia|apply uq_object0, IH|intros ? _]. uret.
  - eapply uq_wait; [lia|apply uq_be; lia|intros n Hn]. eapply uq_wait; [lia|apply uq_push0; lia|intros ? _]. eapply uq_wait; [lia|apply uq_loop, IH|intros ? _]. uret.
  - eapply uq_wait; [lia|apply uq_be; lia|intros ? _]. eapply uq_wait; [lia|eapply uq_weak; [apply (uq_short 2); lia|intros; exact I|unfold w0; intros; lia|lia]|intros ? _]. uret.
  - eapply uq_wait; [lia|apply uq_push0; lia|intros ? _]. eapply uq_wait; [lia|apply uq_string0|intros ? _]. eapply uq_wait; [lia|apply uq_object0, IH|intros ? _]. uret.
  - apply uq_dec3.
Qed.
