(** The decoders with their counts of active calls: they are the decoders, and how large the counts are. *)
From Verif Require Import Base.Go Base.GoFacts Base.IO Base.Float64 Proofs.IOFacts Model.AmfTypes Model.Amf3 Model.Amf0 Model.AmfAlloc Model.AmfCalls Spec.AmfAlloc
  Proofs.AmfFacts Proofs.AmfContr Proofs.AmfTame Proofs.AmfTerm Proofs.AmfAlloc Proofs.AmfAllocLow Proofs.AmfAllocUp.
Local Open Scope Z_scope.

(** * The same decoders *)
Definition cr {A} (m : Cm A) (n : Dm A) : Prop := forall d, snd (m d) = n d.
Lemma cr_leaf {A} (n : Dm A) : cr (leaf n) n. Proof. intros d. reflexivity. Qed.
Lemma cr_call {A} (m : Cm A) n : cr m n -> cr (call m) n. Proof. intros H d. unfold call. rewrite <- (H d). destruct (m d). reflexivity. Qed.
Lemma cr_bind {A B} (m : Cm A) (n : Dm A) (k : A -> Cm B) (h : A -> Dm B) : cr m n -> (forall a, cr (k a) (h a)) -> cr (cbind m k) (dbind n h).
Proof.
  intros Hm Hk d. unfold cbind, dbind. rewrite <- (Hm d). destruct (m d) as [l [d' [a|e| |]]]; cbn [snd]; try reflexivity.
  rewrite <- (Hk a d'). destruct (k a d') as [l' x]. reflexivity.
Qed.
Lemma cr_loop {A} (m : Cm A) n : cr m n -> forall f k, cr (c_loop_n m f k) (loop_n n f k).
Proof. intros H. induction f as [|f IH]; intros k; cbn [c_loop_n loop_n]; destruct (k <=? 0); try apply cr_leaf. apply cr_bind; [exact H|]. intros x. apply cr_bind; [apply IH|]. intros y. apply cr_leaf. Qed.
Lemma cr_assoc m n : cr m n -> forall f loc k, cr (c_assoc_loop m f loc k) (assoc_loop n f loc k).
Proof.
  intros H. induction f as [|f IH]; intros loc [|x k]; cbn [c_assoc_loop assoc_loop]; try apply cr_leaf.
  apply cr_bind; [exact H|intros ?]. apply cr_bind; [apply cr_leaf|intros ?]. apply cr_bind; [apply cr_leaf|intros ?]. apply IH.
Qed.
Lemma cr_array3 m n f : cr m n -> cr (c_decode_array3 m f) (decode_array3 n f).
Proof.
  intros H. apply cr_bind; [apply cr_leaf|]. intros [[|] v]; [apply cr_leaf|]. apply cr_bind; [apply cr_leaf|intros ?]. apply cr_bind; [apply cr_leaf|intros ?].
  apply cr_bind; [apply cr_leaf|intros ?]. apply cr_bind; [apply cr_assoc, H|intros ?]. apply cr_bind; [apply cr_loop, H|intros ?]. apply cr_leaf.
Qed.
Lemma cr_props m n : cr m n -> forall ks loc, cr (c_props_loop m loc ks) (props_loop n loc ks).
Proof. intros H. induction ks as [|k ks IH]; intros loc; cbn; [apply cr_leaf|]. apply cr_bind; [exact H|intros ?]. apply cr_bind; [apply cr_leaf|intros ?]. apply IH. Qed.
Lemma cr_dyn m n : cr m n -> forall f loc, cr (c_dyn_loop m f loc) (dyn_loop n f loc).
Proof.
  intros H. induction f as [|f IH]; intros loc; cbn; [apply cr_leaf|]. apply cr_bind; [apply cr_leaf|]. intros [|x k]; [apply cr_leaf|].
  apply cr_bind; [exact H|intros ?]. apply cr_bind; [apply cr_leaf|intros ?]. apply IH.
Qed.
Lemma cr_object3 m n f : cr m n -> cr (c_decode_object3 m n f) (decode_object3 n f).
Proof.
  intros H. apply cr_bind; [apply cr_leaf|]. intros [[|] v]; [apply cr_leaf|]. apply cr_bind; [apply cr_leaf|intros t]. apply cr_bind; [apply cr_leaf|intros ?].
  destruct (t_ext t); [apply cr_leaf|]. apply cr_bind; [apply cr_leaf|intros ?]. apply cr_bind; [apply cr_props, H|intros ?].
  apply cr_bind; [destruct (t_dyn t); [apply cr_dyn, H|apply cr_leaf]|intros ?]. apply cr_leaf.
Qed.
Lemma cr_dec3 f : cr (c_dec3 f) (dec3 f).
Proof.
  induction f as [|f IH]; cbn [c_dec3 dec3]; [apply cr_leaf|]. apply cr_call. apply cr_bind; [apply cr_leaf|intros m].
  repeat (match goal with |- cr (if ?c then _ else _) _ => destruct c end; [first [apply cr_leaf | apply cr_array3, IH | apply cr_object3, IH]|]). apply cr_leaf.
Qed.
Lemma cr_obj_loop m n : cr m n -> forall f loc, cr (c_obj_loop m f loc) (obj_loop n f loc).
Proof.
  intros H. induction f as [|f IH]; intros loc; cbn; [apply cr_leaf|]. apply cr_bind; [apply cr_leaf|]. intros [|x k]; [apply cr_leaf|].
  apply cr_bind; [exact H|intros ?]. apply cr_bind; [apply cr_leaf|intros ?]. apply IH.
Qed.
Lemma cr_object0 m n f : cr m n -> cr (c_decode_object0 m f) (decode_object0 n f).
Proof. intros H. apply cr_bind; [apply cr_leaf|intros ?]. apply cr_bind; [apply cr_leaf|intros ?]. apply cr_bind; [apply cr_obj_loop, H|intros ?]. apply cr_leaf. Qed.
Lemma cr_ecma0 m n f : cr m n -> cr (c_decode_ecma0 m f) (decode_ecma0 n f).
Proof. intros H. apply cr_bind; [apply cr_leaf|intros ?]. apply cr_bind; [apply cr_object0, H|intros ?]. apply cr_leaf. Qed.
Lemma cr_strict0 m n f : cr m n -> cr (c_decode_strict0 m f) (decode_strict0 n f).
Proof. intros H. apply cr_bind; [apply cr_leaf|intros ?]. apply cr_bind; [apply cr_leaf|intros ?]. apply cr_bind; [apply cr_loop, H|intros ?]. apply cr_leaf. Qed.
Lemma cr_typed0 m n f : cr m n -> cr (c_decode_typed0 m f) (decode_typed0 n f).
Proof. intros H. apply cr_bind; [apply cr_leaf|intros ?]. apply cr_bind; [apply cr_leaf|intros ?]. apply cr_bind; [apply cr_object0, H|intros ?]. apply cr_leaf. Qed.
Lemma cr_dec0 f : cr (c_dec0 f) (dec0 f).
Proof.
  induction f as [|f IH]; cbn [c_dec0 dec0]; [apply cr_leaf|]. apply cr_call. apply cr_bind; [apply cr_leaf|intros m].
  repeat (match goal with |- cr (if ?c then _ else _) _ => destruct c end;
    [first [apply cr_leaf | apply cr_ecma0, IH | apply cr_strict0, IH | apply cr_typed0, IH | apply cr_dec3
           | apply cr_bind; [apply cr_object0, IH|intros ?; apply cr_leaf]]|]). apply cr_leaf.
Qed.

(** * How deep *)
(** Code that reads at least [c] bytes when it succeeds. *)
Definition rd {A} (c : Z) (Q : A -> Prop) (m : Dm A) : Prop := forall d, fair d -> let '(d', r) := m d in fair d' /\
  exists p, r_rest (d_r d) = p ++ r_rest (d_r d') /\ match r with Ok x => Q x /\ c <= len p | _ => True end.
(** Code below which the count is at most half the bytes it reads and [D]. *)
Definition cq {A} (D : Z) (Q : A -> Prop) (m : Cm A) : Prop := forall d, fair d -> let '(n, (d', r)) := m d in fair d' /\
  0 <= n /\ exists p, r_rest (d_r d) = p ++ r_rest (d_r d') /\ 2 * n <= len p + D /\ match r with Ok x => Q x | _ => True end.
Lemma rd_lq {A} (Q : A -> Prop) w a m : lq Q w a -> er a m -> rd 0 Q m.
Proof.
  intros H E d G. specialize (H d G). rewrite <- (E d). destruct (a d) as [l [d' r]]. cbn [snd]. destruct H as (G' & p & Hp & _ & H). split; [exact G'|]. exists p. split; [exact Hp|].
  destruct r; auto. destruct H as [H _]. split; [exact H|apply len_nonneg].
Qed.
Lemma rd_uq {A} n (Q : A -> Prop) a m : uq 0 Q (fun _ => 1073741824 * n) a -> lq any w0 a -> er a m -> rd n Q m.
Proof.
  intros U H E d G. specialize (H d G). specialize (U d G). rewrite <- (E d). destruct (a d) as [l [d' r]]. cbn [snd]. destruct H as (G' & p & Hp & L & _). destruct U as (_ & p' & Hp' & U).
  assert (p' = p) by (rewrite Hp in Hp'; now apply app_inv_tail in Hp'). subst p'. split; [exact G'|]. exists p. split; [exact Hp|]. destruct r; auto. destruct U as [HQ U]. split; [exact HQ|lia].
Qed.
Lemma rd_bind {A B} c c' Q (R : B -> Prop) (m : Dm A) (k : A -> Dm B) : rd c Q m -> (forall x, Q x -> rd c' R (k x)) -> rd (c + c') R (dbind m k).
Proof.
  intros Hm Hk d G. specialize (Hm d G). unfold dbind. destruct (m d) as [d1 [x|e| |]]; destruct Hm as (G1 & p & Hp & H); try (split; [exact G1|]; exists p; split; [exact Hp|exact I]).
  destruct H as [HQ HL]. specialize (Hk x HQ d1 G1). destruct (k x d1) as [d2 r]. destruct Hk as (G2 & p2 & Hp2 & H2). split; [exact G2|]. exists (p ++ p2). rewrite Hp, Hp2, app_assoc. split; [reflexivity|].
  rewrite len_app. destruct r; auto. destruct H2 as [H2 H3]. split; [exact H2|lia].
Qed.
Lemma rd_same {A} (Q : A -> Prop) (m : Dm A) : lq Q w0 (lift m) -> rd 0 Q m.
Proof. intros H. eapply rd_lq; [exact H|apply er_lift]. Qed.
Lemma rd_ret {A} (x : A) : rd 0 any (dret x). Proof. apply rd_same, lq_ret. unfold w0. lia. Qed.
Lemma rd_byte : rd 1 any read_byte.
Proof.
  apply (rd_uq 1 any a_read_byte); [|eapply lq_weak; [apply lq_read_byte|intros; exact I|intros; apply Z.le_refl]|apply er_read_byte].
  eapply uq_weak; [apply uq_read_byte|intros; exact I|intros; cbv beta; lia|lia].
Qed.
Lemma rd_be n : 0 < n <= 8 -> rd n (fun v => 0 <= v) (read_be n).
Proof.
  intros Hn. apply (rd_uq n _ (a_read_be n)); [|eapply lq_weak; [apply lq_read_be; lia|intros; exact I|intros; apply Z.le_refl]|apply er_read_be].
  eapply uq_weak; [apply uq_read_be, Hn|intros; cbv beta in *; lia|intros; cbv beta; lia|lia].
Qed.
Lemma rd_weak {A} c c' (Q Q' : A -> Prop) m : rd c Q m -> (forall x, Q x -> Q' x) -> c' <= c -> rd c' Q' m.
Proof.
  intros H HQ HC d G. specialize (H d G). destruct (m d) as [d' r]. destruct H as (G' & p & Hp & H). split; [exact G'|]. exists p. split; [exact Hp|]. destruct r; auto. destruct H. split; [auto|lia].
Qed.
Lemma rd_u29 : rd 1 (fun v => 0 <= v) read_u29.
Proof.
  assert (R : forall v, rd 0 (fun v => 0 <= v) (dret (u32 v))).
  { intros v. apply rd_same. apply lq_same. intros d G. split; [reflexivity|]. split; [exact G|]. split; [apply Z.mod_pos_bound; reflexivity|unfold w0; lia]. }
  assert (N : forall k, (forall b, rd 0 (fun v => 0 <= v) (k b)) -> rd 0 (fun v => 0 <= v) (dbind read_byte k)).
  { intros k Hk. apply (rd_weak (1 + 0) 0 (fun v => 0 <= v)); [|auto|lia]. eapply rd_bind; [apply rd_byte|intros b _; apply Hk]. }
  unfold read_u29. apply (rd_bind 1 0 any); [apply rd_byte|]. intros b1 _. cbv zeta. destruct (_ =? 0); [apply R|].
  apply N. intros b2. destruct (_ =? 0); [apply R|]. apply N. intros b3. destruct (_ =? 0); [apply R|]. apply N. intros b4. apply R.
Qed.
Lemma rd_du29 : rd 1 (fun x => 0 <= snd x) decode_u29.
Proof.
  apply (rd_bind 1 0 (fun v => 0 <= v)); [apply rd_u29|]. intros u Hu. apply rd_same, lq_same. intros d G. split; [reflexivity|]. split; [exact G|]. split; [|unfold w0; lia].
  cbn [snd]. apply Z.shiftr_nonneg, Hu.
Qed.
Lemma rd_string3 : rd 0 any decode_string3. Proof. eapply rd_lq; [apply lq_string3|apply er_string3]. Qed.
Lemma rd_read n : 0 <= n -> rd 0 any (read_bytes n). Proof. intros H. eapply rd_lq; [apply lq_read_bytes, H|apply er_read_bytes]. Qed.
Lemma rd_string0 : rd 2 any decode_string0.
Proof. apply (rd_bind 2 0 (fun v => 0 <= v)); [apply rd_be; lia|]. intros n Hn. apply rd_read, Hn. Qed.
Lemma rd_longstring0 : rd 4 any decode_longstring0.
Proof. apply (rd_bind 4 0 (fun v => 0 <= v)); [apply rd_be; lia|]. intros n Hn. apply rd_read, Hn. Qed.

Lemma cq_weak {A} D D' (Q Q' : A -> Prop) m : cq D Q m -> (forall x, Q x -> Q' x) -> D <= D' -> cq D' Q' m.
Proof.
  intros H HQ HD d G. specialize (H d G). destruct (m d) as [n [d' r]]. destruct H as (G' & N & p & Hp & L & H). split; [exact G'|]. split; [exact N|]. exists p. split; [exact Hp|]. split; [lia|]. destruct r; auto.
Qed.
Lemma cq_leaf {A} D c (Q : A -> Prop) m : 0 <= D -> rd c Q m -> cq D Q (leaf m).
Proof.
  intros HD H d G. specialize (H d G). unfold leaf. destruct (m d) as [d' r]. destruct H as (G' & p & Hp & H). split; [exact G'|]. split; [lia|]. exists p. split; [exact Hp|].
  pose proof (len_nonneg p). split; [lia|]. destruct r; auto. apply H.
Qed.
(** Reading first, and then calling: the bytes read count. *)
Lemma cq_read {A B} D c Q (R : B -> Prop) (m : Dm A) (k : A -> Cm B) : 0 <= D -> rd c Q m -> (forall x, Q x -> cq (D + c) R (k x)) -> cq D R (cbind (leaf m) k).
Proof.
  intros HD Hm Hk d G. specialize (Hm d G). unfold cbind, leaf. destruct (m d) as [d1 [x|e| |]]; destruct Hm as (G1 & p & Hp & H); pose proof (len_nonneg p);
    try (split; [exact G1|]; split; [lia|]; exists p; split; [exact Hp|]; split; [lia|exact I]).
  destruct H as [HQ HL]. specialize (Hk x HQ d1 G1). destruct (k x d1) as [n [d2 r]]. destruct Hk as (G2 & N & p2 & Hp2 & L & H2). split; [exact G2|]. split; [lia|].
  exists (p ++ p2). rewrite Hp, Hp2, app_assoc. split; [reflexivity|]. rewrite len_app. pose proof (len_nonneg p2). split; [lia|exact H2].
Qed.
Lemma cq_bind {A B} D Q (R : B -> Prop) (m : Cm A) (k : A -> Cm B) : cq D Q m -> (forall x, Q x -> cq D R (k x)) -> cq D R (cbind m k).
Proof.
  intros Hm Hk d G. specialize (Hm d G). unfold cbind. destruct (m d) as [n [d1 [x|e| |]]]; destruct Hm as (G1 & N & p & Hp & L & H);
    try (split; [exact G1|]; split; [lia|]; exists p; split; [exact Hp|]; split; [exact L|exact I]).
  specialize (Hk x H d1 G1). destruct (k x d1) as [n2 [d2 r]]. destruct Hk as (G2 & N2 & p2 & Hp2 & L2 & H2). split; [exact G2|]. split; [lia|].
  exists (p ++ p2). rewrite Hp, Hp2, app_assoc. split; [reflexivity|]. rewrite len_app. pose proof (len_nonneg p). pose proof (len_nonneg p2). split; [lia|exact H2].
Qed.
Lemma cq_call {A} D (Q : A -> Prop) m : cq D Q m -> cq (D + 2) Q (call m).
Proof. intros H d G. specialize (H d G). unfold call. destruct (m d) as [n [d' r]]. destruct H as (G' & N & p & Hp & L & H). split; [exact G'|]. split; [lia|]. exists p. split; [exact Hp|]. split; [lia|exact H]. Qed.
Ltac done0 := eapply cq_leaf; [lia|first [apply rd_ret | apply rd_same; first [apply lq_fail | apply lq_fuel]]].
Lemma cq_ret {A} D (x : A) : 0 <= D -> cq D any (leaf (dret x)). Proof. intros. done0. Qed.
Lemma cq_fuel {A} D Q : 0 <= D -> cq D Q (leaf (fun d => (d, @OutOfFuel A))). Proof. intros. done0. Qed.
Lemma cq_fail {A} D Q e : 0 <= D -> cq D Q (leaf (@dfail A e)). Proof. intros. done0. Qed.
Ltac do0 H := eapply (cq_read _ 0); [lia|exact H|intros ? _; rewrite Z.add_0_r].
Lemma rd_set loc k v : rd 0 any (obj_set loc k v). Proof. apply rd_same, lq_set. Qed.
Lemma rd_alloc : rd 0 any alloc. Proof. apply rd_same, lq_alloc. Qed.
Lemma rd_push0 v : rd 0 any (ref0_push v). Proof. apply rd_same, lq_push0. Qed.
Lemma rd_push v : dense_of v = [] -> rd 0 any (obj3_push v). Proof. intros H. apply rd_same, lq_push, H. Qed.
Lemma cq_loop {A} D (m : Cm A) : 0 <= D -> cq D any m -> forall f n, cq D any (c_loop_n m f n).
Proof.
  intros HD H. induction f as [|f IH]; intros n; cbn [c_loop_n]; destruct (n <=? 0); try (apply cq_ret; exact HD); [apply cq_fuel, HD|].
  eapply cq_bind; [exact H|intros ? _]. eapply cq_bind; [apply IH|intros ? _]. apply cq_ret, HD.
Qed.
Lemma cq_assoc D m : 0 <= D -> cq D any m -> forall f loc k, cq D any (c_assoc_loop m f loc k).
Proof.
  intros HD H. induction f as [|f IH]; intros loc [|x k]; cbn [c_assoc_loop]; try (apply cq_ret, HD); try (apply cq_fuel, HD).
  eapply cq_bind; [exact H|intros ? _]. do0 (rd_set loc (x :: k) x0). do0 rd_string3. apply IH.
Qed.
Lemma rd_ref v (f : value -> Dm value) : 0 <= v -> (forall x, f x = dret x \/ exists e, f x = dfail e) -> rd 0 any (dbind (obj3_ref v) f).
Proof. intros H1 H2. eapply rd_lq; [apply lq_ref; eassumption|apply er_lift]. Qed.
Lemma cq_array3 m f : cq 2 any m -> cq 1 any (c_decode_array3 m f).
Proof.
  intros H. eapply (cq_read 1 1); [lia|apply rd_du29|]. intros [[|] v] Hv; cbn [snd] in Hv.
  - eapply cq_leaf; [lia|]. apply rd_ref; [exact Hv|]. intros [| | | | | | | | | |]; cbn; first [left; reflexivity | right; eexists; reflexivity].
  - change (1 + 1) with 2. do0 rd_string3. do0 (rd_push (VEcma [] None) eq_refl). do0 rd_alloc. eapply cq_bind; [apply cq_assoc; [lia|exact H]|intros ? _].
    eapply cq_bind; [apply cq_loop; [lia|exact H]|intros ? _]. apply cq_ret; lia.
Qed.
Lemma cq_props D m : 0 <= D -> cq D any m -> forall ks loc, cq D any (c_props_loop m loc ks).
Proof.
  intros HD H. induction ks as [|k ks IH]; intros loc; cbn; [apply cq_ret, HD|]. eapply cq_bind; [exact H|intros ? _]. do0 (rd_set loc k x). apply IH.
Qed.
Lemma cq_dyn D m : 0 <= D -> cq D any m -> forall f loc, cq D any (c_dyn_loop m f loc).
Proof.
  intros HD H. induction f as [|f IH]; intros loc; cbn; [apply cq_fuel, HD|]. eapply (cq_read _ 0); [exact HD|apply rd_string3|]. intros [|x k] _; rewrite Z.add_0_r; [apply cq_ret, HD|].
  eapply cq_bind; [exact H|intros ? _]. do0 (rd_set loc (x :: k) x0). apply IH.
Qed.
Lemma cq_object3 m n f : cq 2 any m -> cq 1 any (c_decode_object3 m n f).
Proof.
  intros H. eapply (cq_read 1 1); [lia|apply rd_du29|]. intros [[|] v] Hv; cbn [snd] in Hv; [eapply cq_leaf; [lia|eapply rd_lq; [apply lq_ref1, Hv|apply er_lift]]|].
  change (1 + 1) with 2. eapply (cq_read 2 0); [lia|eapply rd_lq; [apply lq_trait, Hv|apply er_trait]|intros t Ht]. rewrite Z.add_0_r, Ht. do0 (rd_push VNil eq_refl). do0 rd_alloc.
  eapply cq_bind; [apply cq_props; [lia|exact H]|intros ? _]. eapply cq_bind; [destruct (t_dyn t); [apply cq_dyn; [lia|exact H]|apply cq_ret; lia]|intros ? _]. apply cq_ret; lia.
Qed.
Lemma cq_dec3 f : cq 2 any (c_dec3 f).
Proof.
  induction f as [|f IH]; cbn [c_dec3]; [apply cq_fuel; lia|]. apply (cq_call 0). eapply (cq_read 0 1); [lia|apply rd_byte|intros m _]. change (0 + 1) with 1.
  repeat (match goal with |- cq _ _ (if ?c then _ else _) => destruct c end;
    [first [apply cq_ret; lia | apply cq_array3, IH | apply cq_object3, IH
           | eapply cq_leaf; [lia|first [exact (rd_lq _ _ _ _ lq_xml3 er_xml3) | exact (rd_lq _ _ _ _ lq_date3 er_date3) | exact (rd_lq _ _ _ _ lq_bytes3 er_bytes3)
               | eapply rd_bind; [first [apply rd_u29 | apply rd_be; lia | apply rd_string3]|intros ? _; apply rd_ret]]]]|]). apply cq_fail; lia.
Qed.
Lemma cq_obj_loop D m : 0 <= D -> cq (D + 2) any m -> forall f loc, cq D any (c_obj_loop m f loc).
Proof.
  intros HD H. induction f as [|f IH]; intros loc; cbn [c_obj_loop]; [apply cq_fuel, HD|]. eapply (cq_read _ 2); [exact HD|apply rd_string0|]. intros [|x k] _.
  - eapply cq_leaf; [lia|]. eapply rd_lq; [apply lq_next|apply er_next].
  - eapply cq_bind; [exact H|intros ? _]. do0 (rd_set loc (x :: k) x0). eapply cq_weak; [apply IH|auto|lia].
Qed.
Lemma cq_object0 D m f : 0 <= D -> cq (D + 2) any m -> cq D any (c_decode_object0 m f).
Proof. intros HD H. do0 rd_alloc. do0 (rd_push0 (VObj x)). eapply cq_bind; [apply cq_obj_loop; [exact HD|exact H]|intros ? _]. apply cq_ret, HD. Qed.
Lemma cq_dec0 f : cq 3 any (c_dec0 f).
Proof.
  induction f as [|f IH]; cbn [c_dec0]; [apply cq_fuel; lia|]. apply (cq_call 1). eapply (cq_read 1 1); [lia|apply rd_byte|intros m _]. change (1 + 1) with 2.
  assert (IH4 : forall D, 3 <= D -> cq D any (c_dec0 f)) by (intros D HD; eapply cq_weak; [exact IH|auto|exact HD]).
  repeat (match goal with |- cq _ _ (if ?c then _ else _) => destruct c end;
    [first [apply cq_ret; lia | apply cq_fail; lia | apply cq_dec3
           | eapply cq_leaf; [lia|eapply rd_bind; [first [apply rd_be; lia | apply rd_byte | apply rd_string0 | apply rd_longstring0]|intros ? _; apply rd_ret]]
           | idtac]|]); try (apply cq_fail; lia).
  - eapply cq_bind; [apply cq_object0; [lia|apply IH4; lia]|intros ? _]. apply cq_ret; lia.
  - eapply cq_leaf; [lia|]. eapply rd_bind; [apply rd_be; lia|]. intros ref _. apply rd_same. same. repeat match goal with |- context [if ?c then _ else _] => destruct c end; (split; [reflexivity|]); (split; [exact G|]); try exact I. split; [exact I|lia].
  - eapply (cq_read 2 4); [lia|apply rd_be; lia|intros ? _]. eapply cq_bind; [apply cq_object0; [lia|apply IH4; lia]|intros ? _]. apply cq_ret; lia.
  - eapply (cq_read 2 4); [lia|apply rd_be; lia|intros ? _]. do0 (rd_push0 (VArr [])). eapply cq_bind; [apply cq_loop; [lia|apply IH4; lia]|intros ? _]. apply cq_ret; lia.
  - eapply cq_leaf; [lia|]. eapply rd_bind; [apply rd_be; lia|]. intros ? _. eapply rd_bind; [apply rd_read; lia|intros ? _; apply rd_ret].
  - do0 (rd_push0 (VTyped [] None)). eapply (cq_read 2 2); [lia|apply rd_string0|intros ? _]. eapply cq_bind; [apply cq_object0; [lia|apply IH4; lia]|intros ? _]. apply cq_ret; lia.
Qed.
