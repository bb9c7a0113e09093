(** AMF3 documents from readers that return them in chunks. *)
From Verif Require Import Base.Go Base.GoFacts Base.IO Base.Float64 Proofs.IOFacts Model.AmfTypes Model.Amf3 Model.Amf0 Spec.Amf Spec.AmfDoc Spec.Amf3Doc Spec.Amf3Trunc Spec.Amf3Cut
  Proofs.AmfFacts Proofs.AmfContr Proofs.Amf0RT Proofs.Amf0Doc Proofs.Amf3Enc Proofs.Amf3RT Proofs.Amf3Doc Proofs.Amf3More Proofs.Amf3Trunc.
Local Ltac Zify.zify_post_hook ::= Z.div_mod_to_equations.

(** * Chunks *)
Definition full (cs : list bytes) : Prop := Forall (fun c => c <> []) cs.
Definition goes_on (cs : list bytes) (x : bytes) (cs1 : list bytes) : Prop :=
  full cs1 /\ concat cs = x ++ concat cs1 /\
  (forall pre1 post, cs1 = pre1 ++ post -> concat pre1 <> [] -> exists pre, cs = pre ++ post /\ concat pre = x ++ concat pre1) /\
  (forall pre post, cs = pre ++ post -> len x < len (concat pre) -> exists pre1, cs1 = pre1 ++ post /\ concat pre = x ++ concat pre1).
Lemma goes_refl cs : full cs -> goes_on cs [] cs.
Proof. intros H. split; [exact H|]. split; [reflexivity|]. split; intros pre1 post E H1; exists pre1; auto. Qed.
Lemma goes_trans cs x cs1 y cs2 : goes_on cs x cs1 -> goes_on cs1 y cs2 -> goes_on cs (x ++ y) cs2.
Proof.
  intros (_ & E1 & A1 & B1) (F2 & E2 & A2 & B2). split; [exact F2|]. split; [rewrite E1, E2, app_assoc; reflexivity|]. split.
  - intros pre2 post E H. destruct (A2 pre2 post E H) as (pre1 & X1 & Y1). destruct (A1 pre1 post X1) as (pre & X & Y); [rewrite Y1; intros Z0; apply app_eq_nil in Z0; tauto|]. exists pre. split; [exact X|]. rewrite Y, Y1, app_assoc. reflexivity.
  - intros pre post E H. rewrite len_app in H. pose proof (len_nonneg y). destruct (B1 pre post E ltac:(lia)) as (pre1 & X1 & Y1). rewrite Y1, len_app in H. destruct (B2 pre1 post X1 ltac:(lia)) as (pre2 & X2 & Y2). exists pre2. split; [exact X2|]. rewrite Y1, Y2, app_assoc. reflexivity.
Qed.
Lemma goes_whole c cs : full (c :: cs) -> goes_on (c :: cs) c cs.
Proof.
  intros HF. inversion HF as [|? ? Hc HF']; subst. split; [exact HF'|]. split; [reflexivity|]. split.
  - intros pre1 post -> _. exists (c :: pre1). split; reflexivity.
  - intros [|c' pre] post E H; [change (concat []) with (@nil Z) in H; change (len (@nil Z)) with 0 in H; pose proof (len_nonneg c); lia|]. injection E as <- ->. exists pre. split; reflexivity.
Qed.
Lemma goes_part x y cs : x ++ y <> [] -> y <> [] -> full cs -> goes_on ((x ++ y) :: cs) x (y :: cs).
Proof.
  intros N Y HF. split; [constructor; assumption|]. split; [cbn [concat]; rewrite app_assoc; reflexivity|]. split.
  - intros [|y' pre1] post E H; [destruct (H eq_refl)|]. injection E as <- ->. exists ((x ++ y) :: pre1). split; [reflexivity|]. cbn [concat]. rewrite app_assoc. reflexivity.
  - intros [|c' pre] post E H; [change (concat []) with (@nil Z) in H; change (len (@nil Z)) with 0 in H; pose proof (len_nonneg x); lia|]. injection E as <- ->. exists (y :: pre). split; [reflexivity|]. cbn [concat]. rewrite app_assoc. reflexivity.
Qed.
(** From one chunk that is long enough. *)
Lemma goes_one x y post cs1 : y <> [] -> full post -> goes_on ((x ++ y) :: post) x cs1 -> cs1 = y :: post.
Proof.
  intros NY HF (F1 & E1 & A & B). apply pos_len in NY as LY. destruct (B [x ++ y] post eq_refl) as (pre1 & X & Y); [cbn [concat]; rewrite app_nil_r, len_app; lia|]. cbn [concat] in Y. rewrite app_nil_r in Y. apply app_inv_head in Y.
  destruct pre1 as [|h pre1]; [cbn [concat] in Y; congruence|]. destruct pre1 as [|h2 pre1]; [cbn [concat] in Y; rewrite app_nil_r in Y; rewrite Y; exact X|]. exfalso. subst cs1. inversion F1 as [|? ? Hh F2]; subst. inversion F2 as [|? ? Hh2 _]; subst.
  destruct (A [h] ((h2 :: pre1) ++ post) eq_refl) as (pre & P1 & P2); [cbn [concat]; rewrite app_nil_r; exact Hh|]. destruct pre as [|c pre]; [cbn [concat] in P2; rewrite app_nil_r in P2; symmetry in P2; apply app_eq_nil in P2; tauto|]. injection P1 as <- P1.
  cbn [concat] in P2. rewrite app_nil_r in P2. apply (f_equal len) in P2. cbn [concat] in P2. rewrite !len_app in P2. apply pos_len in Hh2. pose proof (len_nonneg (concat pre)). pose proof (len_nonneg (concat pre1)). lia.
Qed.

(** * Cuts *)
Lemma inside_range k us p m : inside k us p m -> 0 < p < len (piece_bytes us) /\ 0 < m /\ m + p <= len (piece_bytes us).
Proof. intros (a & s & b & -> & H & ->). rewrite piece_bytes_app, piece_bytes_cons, !len_app. pose proof (len_nonneg (piece_bytes a)). pose proof (len_nonneg (piece_bytes b)). lia. Qed.
Lemma inside_l k us vs p m : inside k us p m -> inside k (us ++ vs) p m.
Proof. intros (a & s & b & -> & H & E). exists a, s, (b ++ vs). rewrite <- app_assoc. auto. Qed.
Lemma inside_r k us vs p m : inside k vs p m -> inside k (us ++ vs) (len (piece_bytes us) + p) m.
Proof. intros (a & s & b & -> & H & ->). exists (us ++ a), s, b. rewrite <- app_assoc, piece_bytes_app, len_app. repeat split; lia. Qed.
Lemma inside_inv k us vs p m : inside k (us ++ vs) p m -> inside k us p m \/ (inside k vs (p - len (piece_bytes us)) m).
Proof.
  intros (a & s & b & E & H & ->). apply app_eq_app in E. destruct E as (l & [(-> & E)|(-> & ->)]).
  - destruct l as [|u l]; cbn [app] in E.
    + right. subst vs. rewrite app_nil_r. exists [], s, b. change (len (piece_bytes [])) with 0. repeat split; lia.
    + injection E as <- ->. left. exists a, s, l. auto.
  - right. rewrite piece_bytes_app, len_app in *. exists l, s, b. repeat split; lia.
Qed.
Lemma inside_one k k' s p m : inside k [(k', s)] p m -> k = k' /\ 0 < p < len s /\ m = len s - p.
Proof. intros (a & t & b & E & H & ->). destruct a as [|? [|? a]]; try discriminate E. injection E as <- <- <-. change (len (piece_bytes [])) with 0 in *. repeat split; lia. Qed.
Lemma inside_nil k p m : ~ inside k [] p m.
Proof. intros (a & s & b & E & _). destruct a; discriminate E. Qed.

Lemma bytes_prefix (x y u v : bytes) : x ++ y = u ++ v -> len x <= len u -> exists w, u = x ++ w.
Proof. intros E H. apply app_eq_app in E. destruct E as (l & [(-> & E)|(-> & E)]); [|exists l; reflexivity]. rewrite len_app in H. destruct l; [exists []; rewrite !app_nil_r; reflexivity|]. rewrite len_cons in H. pose proof (len_nonneg l). lia. Qed.
Lemma uncut_app us vs cs cs1 : goes_on cs (piece_bytes us) cs1 -> uncut us cs -> uncut vs cs1 -> uncut (us ++ vs) cs.
Proof.
  intros (_ & _ & _ & B) U1 U2 pre post k m E I. apply inside_inv in I. destruct I as [I|I]; [eapply U1; eassumption|]. pose proof (inside_range _ _ _ _ I) as (R & _). destruct (B pre post E ltac:(lia)) as (pre1 & X & Y).
  eapply U2; [exact X|]. rewrite Y, len_app in I. replace (len (concat pre1)) with (len (piece_bytes us) + len (concat pre1) - len (piece_bytes us)) by lia. exact I.
Qed.
Lemma first_l us vs cs k pre post m : first_cut us cs k pre post m -> first_cut (us ++ vs) cs k pre post m.
Proof.
  intros (E & I & K & M). split; [exact E|]. split; [apply inside_l; exact I|]. split; [exact K|]. intros pre' post' k' m' E' I' K'. apply inside_inv in I'. destruct I' as [I'|I']; [eapply M; eassumption|].
  apply inside_range in I. apply inside_range in I'. lia.
Qed.
Lemma first_r us vs cs cs1 k pre1 post m : goes_on cs (piece_bytes us) cs1 -> uncut us cs -> first_cut vs cs1 k pre1 post m ->
  exists pre, first_cut (us ++ vs) cs k pre post m /\ concat pre = piece_bytes us ++ concat pre1.
Proof.
  intros (_ & _ & A & B) U (E & I & K & M). pose proof (inside_range _ _ _ _ I) as (R & _). destruct (A pre1 post E) as (pre & X & Y); [intros Z0; rewrite Z0 in R; change (len (@nil Z)) with 0 in R; lia|]. exists pre. split; [|exact Y].
  split; [exact X|]. split; [rewrite Y, len_app; apply inside_r; exact I|]. split; [exact K|]. intros pre' post' k' m' E' I' K'. apply inside_inv in I'. destruct I' as [I'|I'].
  - destruct (U pre' post' k' m' E' I') as [-> | ->]; destruct K'; discriminate.
  - pose proof (inside_range _ _ _ _ I') as (R' & _). destruct (B pre' post' E' ltac:(lia)) as (pre1' & X' & Y'). rewrite Y, Y', !len_app in *. enough (len (concat pre1) <= len (concat pre1')) by lia. eapply M; [exact X'| |exact K'].
    replace (len (concat pre1')) with (len (piece_bytes us) + len (concat pre1') - len (piece_bytes us)) by lia. exact I'.
Qed.

(** * Steps *)
Definition on (d : dstate) (cs : list bytes) (e : rend) : dstate := set_r (mkR cs e false) d.
Definition patch (pre post : list bytes) (m : Z) : list bytes := (concat pre ++ repeat 0 (Z.to_nat m)) :: post.
Definition outcome3 {A} (m : Dm A) (us : pieces) (d : dstate) (e : rend) (d1 : dstate) (a : A) (cs : list bytes) : Prop :=
  (exists cs1, m (on d cs e) = (on d1 cs1 e, Ok a) /\ goes_on cs (piece_bytes us) cs1 /\ uncut us cs) \/
  (exists pre post z, snd (m (on d cs e)) = Err EOther /\ first_cut us cs Text pre post z) \/
  (exists pre post z, m (on d cs e) = m (on d (patch pre post z) e) /\ first_cut us cs Content pre post z).
Definition gets3 {A} (n : nat) (m : Dm A) (us : pieces) (d : dstate) (e : rend) (Q : dstate -> A -> Prop) : Prop :=
  (weight us < n)%nat -> exists d1 a, Q d1 a /\ forall cs rest, full cs -> concat cs = piece_bytes us ++ rest -> outcome3 m us d e d1 a cs.
Lemma full_app_r pre post : full (pre ++ post) -> full post.
Proof. intros H. apply Forall_app in H. tauto. Qed.
Lemma patch_full pre post m cs : full cs -> cs = pre ++ post -> concat pre <> [] -> full (patch pre post m).
Proof. intros H -> N. constructor; [intros X; apply app_eq_nil in X; tauto|eapply full_app_r; eassumption]. Qed.
(** A long first chunk is not cut. *)
Lemma not_in_first us x y post pre post' k m : piece_bytes us = x -> (x ++ y) :: post = pre ++ post' -> inside k us (len (concat pre)) m -> False.
Proof.
  intros EU E I. apply inside_range in I. destruct pre as [|c pre]; [change (concat []) with (@nil Z) in I; change (len (@nil Z)) with 0 in I; lia|]. injection E as <- _. cbn [concat] in I. rewrite !len_app, EU in I. pose proof (len_nonneg y). pose proof (len_nonneg (concat pre)). lia.
Qed.
Lemma g3_bind {A B} n n' (m : Dm A) (k : A -> Dm B) us vs d e Q R : (n <= n' + weight us)%nat -> gets3 n m us d e Q -> (forall d' a, Q d' a -> gets3 n' (k a) vs d' e R) ->
  gets3 n (dbind m k) (us ++ vs) d e R.
Proof.
  intros Hn HM Hk HW. rewrite weight_app in HW. destruct (HM ltac:(lia)) as (d1 & a & Q1 & O1). destruct (Hk d1 a Q1 ltac:(lia)) as (d2 & b & R2 & O2). exists d2, b. split; [exact R2|].
  intros cs rest HF HC. rewrite piece_bytes_app, <- app_assoc in HC. destruct (O1 cs _ HF HC) as [(cs1 & E1 & G1 & U1)|[(pre & post & z & E1 & F1)|(pre & post & z & E1 & F1)]].
  - pose proof G1 as (F1 & C1 & _). rewrite HC in C1. apply app_inv_head in C1. symmetry in C1. destruct (O2 cs1 rest F1 C1) as [(cs2 & E2 & G2 & U2)|[(pre & post & z & E2 & F2)|(pre & post & z & E2 & F2)]].
    + left. exists cs2. unfold dbind. rewrite E1. split; [exact E2|]. rewrite piece_bytes_app. split; [eapply goes_trans; eassumption|eapply uncut_app; eassumption].
    + right; left. destruct (first_r us vs _ _ _ _ _ _ G1 U1 F2) as (pre0 & P0 & _). exists pre0, post, z. unfold dbind. rewrite E1. split; [exact E2|exact P0].
    + right; right. destruct (first_r us vs _ _ _ _ _ _ G1 U1 F2) as (pre0 & P0 & Y0). exists pre0, post, z. split; [|exact P0]. unfold dbind. rewrite E1, E2.
      pose proof F2 as (X2 & I2 & _). assert (NP : concat pre <> []) by (apply inside_range in I2; intros Z0; rewrite Z0 in I2; change (len (@nil Z)) with 0 in I2; lia).
      pose proof P0 as (X0 & _). unfold patch. rewrite Y0, <- app_assoc. set (y := concat pre ++ repeat 0 (Z.to_nat z)). assert (NY : y <> []) by (intros Z0; apply app_eq_nil in Z0; tauto).
      assert (FP : full post) by (rewrite X0 in HF; eapply full_app_r; eassumption).
      destruct (O1 ((piece_bytes us ++ y) :: post) (y ++ concat post)) as [(cs3 & E3 & G3 & _)|[(pr & po & z' & _ & (X3 & I3 & _))|(pr & po & z' & _ & (X3 & I3 & _))]].
      * constructor; [intros Z0; apply app_eq_nil in Z0; tauto|exact FP].
      * cbn [concat]. rewrite <- app_assoc. reflexivity.
      * rewrite E3. apply goes_one in G3; [|assumption..]. subst cs3. reflexivity.
      * exfalso. eapply not_in_first; [reflexivity|exact X3|exact I3].
      * exfalso. eapply not_in_first; [reflexivity|exact X3|exact I3].
  - right; left. exists pre, post, z. split; [|apply first_l; exact F1]. unfold dbind. destruct (m (on d cs e)) as [dd [?|?| |]]; cbn [snd] in *; try discriminate. congruence.
  - right; right. exists pre, post, z. split; [|apply first_l; exact F1]. unfold dbind. rewrite E1. reflexivity.
Qed.
Lemma uncut_nil cs : uncut [] cs.
Proof. intros pre post k m _ I. destruct (inside_nil _ _ _ I). Qed.
Lemma g3_pure {A} n (m : Dm A) d d1 a e (Q : dstate -> A -> Prop) : (forall r, m (set_r r d) = (set_r r d1, Ok a)) -> Q d1 a -> gets3 n m [] d e Q.
Proof. intros E HQ _. exists d1, a. split; [exact HQ|]. intros cs rest HF _. left. exists cs. split; [apply E|]. split; [apply goes_refl, HF|apply uncut_nil]. Qed.
Lemma g3_ext {A} n (m : Dm A) us vs d e (Q : dstate -> A -> Prop) : vs = us -> gets3 n m us d e Q -> gets3 n m vs d e Q.
Proof. intros ->. auto. Qed.
Lemma g3_weak {A} n (m : Dm A) us d e (Q R : dstate -> A -> Prop) : (forall d' a, Q d' a -> R d' a) -> gets3 n m us d e Q -> gets3 n m us d e R.
Proof. intros H G W. destruct (G W) as (d1 & a & Q1 & O). exists d1, a. auto. Qed.
Lemma g3_nofuel {A} (m : Dm A) us d e (Q : dstate -> A -> Prop) : gets3 0 m us d e Q.
Proof. intros W. lia. Qed.

(** One Read call. *)
Lemma read_one cs e s rest : full cs -> concat cs = s ++ rest -> s <> [] ->
  (exists cs1, read (len s) (mkR cs e false) = (mkR cs1 e false, Ok s) /\ goes_on cs s cs1 /\ forall pre post, cs = pre ++ post -> concat pre = [] \/ len s <= len (concat pre)) \/
  (exists c post y, cs = c :: post /\ c <> [] /\ y <> [] /\ s = c ++ y /\ read (len s) (mkR cs e false) = (mkR post e false, Ok c)).
Proof.
  intros HF HC NS. apply pos_len in NS as LS. destruct cs as [|c cs]; [cbn [concat] in HC; symmetry in HC; apply app_eq_nil in HC; tauto|]. inversion HF as [|? ? Nc HF']; subst. cbn [concat] in HC. unfold read. cbn [r_chunks r_end r_with]. replace (len s =? 0) with false by lia.
  assert (P : forall pre post, c :: cs = pre ++ post -> len s <= len c -> concat pre = [] \/ len s <= len (concat pre)).
  { intros [|c' pre] post E H; [left; reflexivity|]. injection E as <- _. right. cbn [concat]. rewrite len_app. pose proof (len_nonneg (concat pre)). lia. }
  apply app_eq_app in HC. destruct HC as (l & [(-> & E)|(-> & E)]).
  - left. destruct (list_eq_dec Z.eq_dec l []) as [->|NL].
    + rewrite app_nil_r in *. exists cs. rewrite Z.leb_refl. split; [destruct cs; reflexivity|]. split; [apply goes_whole, HF|]. intros pre post X. apply (P pre post X). lia.
    + apply pos_len in NL as LL. exists (l :: cs). rewrite len_app in *. replace (len s + len l <=? len s) with false by lia. split; [|split; [apply goes_part; assumption|intros pre post X; apply (P pre post X); lia]].
      f_equal; [|f_equal]; [f_equal; f_equal|]; unfold take, drop, len; rewrite Nat2Z.id; [rewrite skipn_app, Nat.sub_diag, skipn_all; reflexivity|rewrite firstn_app, Nat.sub_diag, firstn_O, app_nil_r, firstn_all; reflexivity].
  - destruct (list_eq_dec Z.eq_dec l []) as [->|NL].
    + rewrite app_nil_r in *. left. exists cs. rewrite Z.leb_refl. split; [destruct cs; reflexivity|]. split; [apply goes_whole, HF|]. intros pre post X. apply (P pre post X). lia.
    + right. exists c, cs, l. apply pos_len in NL as LL. rewrite len_app in *. replace (len c <=? len c + len l) with true by lia. repeat split; try assumption. destruct cs; reflexivity.
Qed.
Lemma uncut_whole k s cs : k = Whole \/ k = Stamp -> uncut [(k, s)] cs.
Proof. intros K pre post k' m _ I. apply inside_one in I. destruct I as (-> & _). exact K. Qed.
Lemma uncut_one k s cs : (forall pre post, cs = pre ++ post -> concat pre = [] \/ len s <= len (concat pre)) -> uncut [(k, s)] cs.
Proof. intros H pre post k' m E I. apply inside_one in I. destruct I as (-> & R & _). destruct (H pre post E) as [X|X]; [rewrite X in R; change (len (@nil Z)) with 0 in R; lia|lia]. Qed.
Lemma first_chunk k c post y : k = Text \/ k = Content -> c <> [] -> y <> [] -> first_cut [(k, c ++ y)] (c :: post) k [c] post (len y).
Proof.
  intros K NC NY. apply pos_len in NC. apply pos_len in NY. split; [reflexivity|]. cbn [concat]. rewrite app_nil_r. split.
  - exists [], (c ++ y), []. rewrite len_app. change (len (piece_bytes [])) with 0. repeat split; lia.
  - split; [exact K|]. intros [|c' pre'] post' k' m' E I _; [apply inside_range in I; change (len (concat [])) with 0 in I; lia|]. injection E as <- _. cbn [concat]. rewrite len_app. pose proof (len_nonneg (concat pre')). lia.
Qed.
Lemma g3_read n (k : kind) s d e : s <> [] -> k = Text \/ len s = 1 -> gets3 n (read_bytes (len s)) [(k, s)] d e (is s d).
Proof.
  intros NS K _. exists d, s. split; [split; reflexivity|]. intros cs rest HF HC. cbn [piece_bytes map concat snd] in HC. unfold piece_bytes in HC. cbn [map concat snd] in HC. rewrite app_nil_r in HC. unfold outcome3, read_bytes. cbn [on set_r d_r].
  destruct (read_one cs e s rest HF HC NS) as [(cs1 & E & G & P)|(c & post & y & -> & NC & NY & -> & E)]; rewrite E.
  - left. exists cs1. rewrite Z.eqb_refl. split; [reflexivity|]. split; [unfold piece_bytes; cbn [map concat snd]; rewrite app_nil_r; exact G|apply uncut_one, P].
  - apply pos_len in NC as LC. apply pos_len in NY as LY. destruct K as [-> |K]; [|rewrite len_app in K; lia]. right; left. exists [c], post, (len y). rewrite len_app. replace (len c =? len c + len y) with false by lia. split; [reflexivity|]. apply first_chunk; auto.
Qed.
Lemma g3_text n s d e : s <> [] -> gets3 n (read_bytes (len s)) (piece Text s) d e (is s d).
Proof. intros NS. rewrite piece_ne by exact NS. apply g3_read; auto. Qed.
Lemma g3_byte n b d e : gets3 n read_byte (singles [b]) d e (is b d).
Proof. unfold read_byte. change 1 with (len [b]). cbn [singles map]. eapply g3_ext; [symmetry; apply (app_nil_r [(Whole, [b])])|]. eapply (g3_bind n n); [lia|apply g3_read; [discriminate|right; reflexivity]|]. intros d' a (-> & ->). eapply g3_pure; [reflexivity|split; reflexivity]. Qed.
Lemma g3_into n s d e : s <> [] -> gets3 n (read_into (len s)) (piece Content s) d e (fun d' _ => d' = d).
Proof.
  intros NS _. rewrite piece_ne by exact NS. apply pos_len in NS as LS. exists d, s. split; [reflexivity|]. intros cs rest HF HC. unfold piece_bytes in HC. cbn [map concat snd] in HC. rewrite app_nil_r in HC. unfold outcome3, read_into. cbn [on set_r d_r].
  destruct (read_one cs e s rest HF HC NS) as [(cs1 & E & G & P)|(c & post & y & -> & NC & NY & -> & E)].
  - left. exists cs1. rewrite E. rewrite Z.sub_diag. cbn [Z.to_nat repeat]. rewrite app_nil_r. split; [reflexivity|]. split; [unfold piece_bytes; cbn [map concat snd]; rewrite app_nil_r; exact G|apply uncut_one, P].
  - right; right. exists [c], post, (len y). split; [|apply first_chunk; auto]. rewrite E. unfold patch. cbn [concat]. rewrite app_nil_r. unfold read. cbn [r_chunks r_end r_with]. rewrite len_app. apply pos_len in NC as LC. apply pos_len in NY as LY. replace (len c + len y =? 0) with false by lia.
    assert (LL : len (c ++ repeat 0 (Z.to_nat (len y))) = len c + len y) by (rewrite len_app; unfold len; rewrite repeat_length; lia). rewrite LL, Z.leb_refl.
    replace (len c + len y - len c) with (len y) by lia. replace (match post with [] => Ok (c ++ repeat 0 (Z.to_nat (len y))) | _ :: _ => Ok (c ++ repeat 0 (Z.to_nat (len y))) end) with (@Ok bytes (c ++ repeat 0 (Z.to_nat (len y)))) by (destruct post; reflexivity).
    rewrite LL, Z.sub_diag. cbn [Z.to_nat repeat]. rewrite app_nil_r. reflexivity.
Qed.
Lemma read_full_goes cs : forall e n acc x rest, full cs -> concat cs = x ++ rest -> len x = n -> 0 < n ->
  exists cs', read_full_chunks e n acc cs = (cs', Ok (acc ++ x)) /\ goes_on cs x cs'.
Proof.
  induction cs as [|c cs IH]; intros e n acc x rest HF E Hx Hn; [cbn [concat] in E; symmetry in E; apply app_eq_nil in E; destruct E as [-> _]; change (len (@nil Z)) with 0 in Hx; lia|].
  inversion HF as [|? ? Nc HF']; subst. cbn [concat] in E. cbn [read_full_chunks]. apply app_eq_app in E. destruct E as (l & [(-> & E)|(-> & E)]).
  - destruct (list_eq_dec Z.eq_dec l []) as [->|NL].
    + rewrite app_nil_r in *. rewrite Z.ltb_irrefl, Z.eqb_refl. exists cs. split; [reflexivity|apply goes_whole, HF].
    + apply pos_len in NL as LL. rewrite len_app. replace (len x + len l <? len x) with false by lia. replace (len x + len l =? len x) with false by lia. exists (l :: cs). split; [|apply goes_part; assumption].
      f_equal; [|f_equal]; [f_equal|f_equal]; unfold take, drop, len; rewrite Nat2Z.id; [rewrite skipn_app, Nat.sub_diag, skipn_all; reflexivity|rewrite firstn_app, Nat.sub_diag, firstn_O, app_nil_r, firstn_all; reflexivity].
  - destruct (list_eq_dec Z.eq_dec l []) as [->|NL].
    + rewrite app_nil_r in *. rewrite Z.ltb_irrefl, Z.eqb_refl. exists cs. split; [reflexivity|apply goes_whole, HF].
    + apply pos_len in NL as LL. rewrite len_app in *. replace (len c <? len c + len l) with true by lia. destruct (IH e (len c + len l - len c) (acc ++ c) l rest HF' E) as (cs' & E1 & G); [lia|lia|]. exists cs'. rewrite E1, <- app_assoc. split; [reflexivity|]. eapply goes_trans; [apply goes_whole, HF|exact G].
Qed.
Lemma be_goes k x d e cs rest : k = Whole \/ k = Stamp -> x <> [] -> full cs -> concat cs = piece_bytes [(k, x)] ++ rest ->
  exists cs1, read_be (len x) (on d cs e) = (on d cs1 e, Ok (be_val x)) /\ goes_on cs (piece_bytes [(k, x)]) cs1 /\ uncut [(k, x)] cs.
Proof.
  intros K NX HF HC. unfold piece_bytes in *. cbn [map concat snd] in *. rewrite app_nil_r in *. apply pos_len in NX as LX. destruct (read_full_goes cs (e_err e) (len x) [] x rest HF HC eq_refl LX) as (cs1 & E & G).
  exists cs1. split; [|split; [exact G|apply uncut_whole, K]]. unfold read_be, read_full. cbn [on set_r d_r r_chunks r_end r_with]. rewrite E. reflexivity.
Qed.
Lemma g3_double n bits d e : 0 <= bits < 2 ^ 64 -> gets3 n (read_be 8) (piece Whole (be64 bits)) d e (is bits d).
Proof.
  intros Hb _. rewrite piece_ne by discriminate. exists d, bits. split; [split; reflexivity|]. intros cs rest HF HC. left. destruct (be_goes Whole (be64 bits) d e cs rest (or_introl eq_refl) ltac:(discriminate) HF HC) as (cs1 & E & G). exists cs1.
  rewrite be_val_be64, Z.mod_small in E by exact Hb. split; [exact E|exact G].
Qed.
Lemma g3_stamp n bits d e : 0 <= bits < 2 ^ 64 -> gets3 n (fun d => match read_be 8 d with (d', Err _) => (d', Err EOther) | x => x end) (piece Stamp (be64 bits)) d e (is bits d).
Proof.
  intros Hb _. rewrite piece_ne by discriminate. exists d, bits. split; [split; reflexivity|]. intros cs rest HF HC. left. destruct (be_goes Stamp (be64 bits) d e cs rest (or_intror eq_refl) ltac:(discriminate) HF HC) as (cs1 & E & G). exists cs1.
  rewrite be_val_be64, Z.mod_small in E by exact Hb. change (len (be64 bits)) with 8 in E. rewrite E. split; [reflexivity|exact G].
Qed.
Ltac next_byte := match goal with |- gets3 ?n _ (singles (?x :: ?t)) _ _ _ => apply (g3_ext n _ (singles [x] ++ singles t)); [reflexivity|] end; eapply g3_bind; [|apply g3_byte|intros d' v' (-> & ->)]; [apply Nat.le_add_r|].
Lemma g3_u29 n v b d e : u29 v b -> gets3 n read_u29 (singles b) d e (is v d).
Proof.
  intros Hu. unfold read_u29. inversion Hu; subst; next_byte; rewrite land128 by (unfold byte; lia).
  - replace (v <? 128) with true by lia. rewrite Z.eqb_refl, land127, shiftl_mul by lia. cbn [singles map]. eapply g3_pure; [intros r; reflexivity|]. split; [reflexivity|]. rewrite u32_id by lia. lia.
  - replace (128 + a <? 128) with false by lia. cbn [Z.eqb]. next_byte. rewrite land128 by (unfold byte; lia). replace (b0 <? 128) with true by lia. cbn [Z.eqb]. cbn [singles map]. eapply g3_pure; [intros r; reflexivity|]. split; [reflexivity|].
    rewrite !land127, !shiftl_mul by lia. change (2 ^ 7) with 128. unfold u32. lia.
  - replace (128 + a <? 128) with false by lia. cbn [Z.eqb]. next_byte. rewrite land128 by (unfold byte; lia). replace (128 + b0 <? 128) with false by lia. cbn [Z.eqb]. next_byte. rewrite land128 by (unfold byte; lia). replace (c <? 128) with true by lia. cbn [Z.eqb].
    cbn [singles map]. eapply g3_pure; [intros r; reflexivity|]. split; [reflexivity|]. rewrite !land127, !shiftl_mul by lia. change (2 ^ 7) with 128. unfold u32. lia.
  - replace (128 + a <? 128) with false by lia. cbn [Z.eqb]. next_byte. rewrite land128 by (unfold byte; lia). replace (128 + b0 <? 128) with false by lia. cbn [Z.eqb]. next_byte. rewrite land128 by (unfold byte; lia). replace (128 + c <? 128) with false by lia. cbn [Z.eqb].
    next_byte. cbn [singles map]. eapply g3_pure; [intros r; reflexivity|]. split; [reflexivity|]. rewrite !land127, !shiftl_mul by lia. change (2 ^ 7) with 128. change (2 ^ 8) with 256. unfold u32. lia.
Qed.
Lemma g3_u29_val n k b d e : u29 (2 * k + 1) b -> gets3 n decode_u29 (singles b) d e (is (false, k) d).
Proof.
  intros Hu. unfold decode_u29. eapply g3_ext; [symmetry; apply app_nil_r|]. eapply (g3_bind n n); [lia|apply g3_u29; exact Hu|]. intros d' a (-> & ->). eapply g3_pure; [reflexivity|]. split; [reflexivity|].
  change 1 with (2 ^ 1 - 1) at 2. rewrite land_ones, shiftr_div by lia. change (2 ^ 1) with 2. replace ((2 * k + 1) mod 2 =? 0) with false by lia. replace ((2 * k + 1) / 2) with k by lia. reflexivity.
Qed.
Lemma g3_u29_ref n k b d e : u29 (2 * k) b -> gets3 n decode_u29 (singles b) d e (is (true, k) d).
Proof.
  intros Hu. unfold decode_u29. eapply g3_ext; [symmetry; apply app_nil_r|]. eapply (g3_bind n n); [lia|apply g3_u29; exact Hu|]. intros d' a (-> & ->). eapply g3_pure; [reflexivity|]. split; [reflexivity|].
  change 1 with (2 ^ 1 - 1) at 1. rewrite land_ones, shiftr_div by lia. change (2 ^ 1) with 2. replace ((2 * k) mod 2 =? 0) with true by lia. replace ((2 * k) / 2) with k by lia. reflexivity.
Qed.

(** * Strings and traits *)
Lemma g3_string n st us s st' d e : vr_pieces st us s st' -> d_str3 d = st -> gets3 n decode_string3 us d e (is s (set_str3 st' d)).
Proof.
  intros Hv Hs. unfold decode_string3. inversion Hv; subst.
  - eapply g3_ext; [symmetry; apply app_nil_r|]. eapply (g3_bind n n); [lia|apply g3_u29_ref; eassumption|]. intros d' a (-> & ->). cbn iota beta.
    assert (L : (i < length (d_str3 d))%nat) by (apply nth_error_Some; congruence). eapply (g3_pure _ _ _ d s); [|split; [destruct d; reflexivity|reflexivity]]. intros r. cbn [d_str3 set_r]. unfold len. replace (Z.of_nat (length (d_str3 d)) <=? Z.of_nat i) with false by lia. rewrite Nat2Z.id. rewrite (nth_error_nth _ _ _ H0). reflexivity.
  - eapply g3_ext; [symmetry; apply app_nil_r|]. eapply (g3_bind n n); [lia|apply (g3_u29_val n 0); eassumption|]. intros d' a (-> & ->). cbn iota beta. eapply (g3_pure _ _ _ d []); [reflexivity|]. split; [destruct d; reflexivity|reflexivity].
  - eapply (g3_bind n n); [lia|apply g3_u29_val; eassumption|]. intros d' a (-> & ->). cbn iota beta. apply pos_len in H as LS. replace (len s =? 0) with false by lia.
    eapply g3_ext; [symmetry; apply app_nil_r|]. eapply (g3_bind n n); [lia|apply g3_text; assumption|]. intros d' a (-> & ->). apply (g3_pure _ _ _ (set_str3 (d_str3 d ++ [s]) d) s); [intros r; reflexivity|]. split; reflexivity.
Qed.
Lemma g3_strings st us ss st' : vrs_pieces st us ss st' -> forall n k d e, (n <= k)%nat -> d_str3 d = st -> gets3 n (loop_n decode_string3 k (len ss)) us d e (is ss (set_str3 st' d)).
Proof.
  induction 1 as [st|st b s st1 bs ss st2 H HS IH]; intros n k d e Hk Hs.
  - eapply (g3_pure _ _ _ d []); [intros r; destruct k; reflexivity|]. subst st. split; [destruct d; reflexivity|reflexivity].
  - destruct k as [|k]; [replace n with 0%nat by lia; apply g3_nofuel|]. cbn [loop_n]. rewrite len_cons. pose proof (len_nonneg ss). replace (1 + len ss <=? 0) with false by lia. replace (1 + len ss - 1) with (len ss) by lia.
    eapply (g3_bind n (n - 1)); [pose proof (vr_weight _ _ _ _ H); lia|eapply g3_string; eassumption|]. intros d' a (-> & ->).
    eapply g3_ext; [symmetry; apply app_nil_r|]. eapply (g3_bind (n - 1) (n - 1)); [lia|apply IH; [lia|reflexivity]|]. intros d' a (-> & ->). eapply g3_pure; [reflexivity|]. split; [destruct d; reflexivity|reflexivity].
Qed.
Lemma g3_traits T us c T' : traits_pieces T us c T' -> exists b us' v, us = singles b ++ us' /\ u29 (2 * v + 1) b /\
  forall n k d e, (n <= k)%nat -> rel T d -> gets3 n (decode_trait k v) us' d e (fun d' t => t = plain c /\ rel T' d').
Proof.
  intros H. inversion H; subst.
  - exists b, [], (2 * Z.of_nat i). split; [symmetry; apply app_nil_r|]. split; [replace (2 * (2 * Z.of_nat i) + 1) with (4 * Z.of_nat i + 1) by lia; exact H0|]. intros n k d e Hk [RS RT].
    unfold decode_trait. change 1 with (2 ^ 1 - 1) at 1. rewrite land_ones by lia. replace ((2 * Z.of_nat i) mod 2 ^ 1 =? 0) with true by (change (2 ^ 1) with 2; lia).
    assert (L : (i < length (t_classes T'))%nat) by (apply nth_error_Some; congruence). eapply (g3_pure _ _ _ d (plain c)); [|split; [reflexivity|split; assumption]]. intros r. cbv zeta. cbn [d_trait3 set_r].
    rewrite shiftr_div by lia. change (2 ^ 1) with 2. replace (2 * Z.of_nat i / 2) with (Z.of_nat i) by lia. rewrite RT. unfold len. rewrite map_length. replace (Z.of_nat (length (t_classes T')) <=? Z.of_nat i) with false by lia. rewrite Nat2Z.id.
    apply f_equal2; [reflexivity|]. f_equal. apply nth_error_nth. apply map_nth_error. exact H1.
  - pose proof (len_nonneg props) as HL. exists b, (b1 ++ b2), (8 * len props + 1). split; [reflexivity|]. split; [replace (2 * (8 * len props + 1) + 1) with (16 * len props + 3) by lia; exact H0|]. intros n k d e Hk [RS RT].
    unfold decode_trait. change 1 with (2 ^ 1 - 1) at 2. rewrite land_ones by lia. replace ((8 * len props + 1) mod 2 ^ 1 =? 0) with false by (change (2 ^ 1) with 2; lia). cbv zeta. rewrite !not_bit0 by auto.
    eapply (g3_bind n n); [lia|eapply g3_string; eassumption|]. intros d' a (-> & ->). rewrite shiftr_div by lia. change (2 ^ 3) with 8. replace ((8 * len props + 1) / 8) with (len props) by lia.
    eapply g3_ext; [symmetry; apply app_nil_r|]. eapply (g3_bind n n); [lia|eapply g3_strings; [eassumption|exact Hk|reflexivity]|]. intros d' a (-> & ->). eapply (g3_pure _ _ _ (set_trait3 (d_trait3 d ++ [mkTrait ty false false props]) (set_str3 st2 d))); [intros r; reflexivity|]. split; [reflexivity|]. split; [reflexivity|]. cbn [d_trait3 set_trait3 set_str3 t_classes]. rewrite RT, map_app. reflexivity.
Qed.

(** * Values *)
Lemma g3_push n v T d e : rel T d -> gets3 n (obj3_push v) [] d e (fun d' _ => rel T d').
Proof. intros H. apply (g3_pure _ _ _ (set_obj3 (d_obj3 d ++ [v]) d) tt); [intros r; reflexivity|exact H]. Qed.
Lemma g3_alloc n T d e : rel T d -> gets3 n alloc [] d e (fun d' _ => rel T d').
Proof. intros H. apply (g3_pure _ _ _ (set_heap (d_heap d ++ [[]]) d) (length (d_heap d))); [intros r; reflexivity|exact H]. Qed.
Lemma g3_set n l k v T d e : rel T d -> gets3 n (obj_set l k v) [] d e (fun d' _ => rel T d').
Proof. intros H. apply (g3_pure _ _ _ (set_heap (upd_nth l (map_set k v) (d_heap d)) d) tt); [intros r; reflexivity|exact H]. Qed.
Definition GV (T : tables) (us : pieces) (T' : tables) : Prop := forall fuel n d e, (n <= fuel)%nat -> rel T d -> gets3 n (dec3 fuel) us d e (fun d' _ => rel T' d').
Definition GVS (T : tables) (us : pieces) (c : nat) (T' : tables) : Prop := forall fuel n d e, (n <= fuel)%nat -> rel T d ->
  (forall k, (n <= k)%nat -> gets3 n (loop_n (dec3 fuel) k (Z.of_nat c)) us d e (fun d' _ => rel T' d')) /\
  (forall keys loc, length keys = c -> gets3 n (props_loop (dec3 fuel) loc keys) us d e (fun d' _ => rel T' d')).
Definition GA (T : tables) (us : pieces) (T' : tables) : Prop := exists key st uk us', us = uk ++ us' /\ vr_pieces (t_strings T) uk key st /\
  forall fuel n k d e loc, (n <= fuel)%nat -> (n <= k)%nat -> rel (with_strings st T) d -> gets3 n (assoc_loop (dec3 fuel) k loc key) us' d e (fun d' _ => rel T' d').
Lemma g3_blob n T b s m d e (mk : bytes -> value) : m = 7 \/ m = 11 \/ m = 12 -> u29 (2 * len s + 1) b -> rel T d -> forall D : Dm value,
  D = (d* (is_ref, v) := decode_u29 in if is_ref then (d* x := obj3_ref v in match x with VStr _ => dret x | _ => dfail EOther end) else if v =? 0 then dret (mk []) else d* s := read_into v in d* _ := obj3_push (mk s) in dret (mk s)) \/
  D = (d* (is_ref, v) := decode_u29 in if is_ref then (d* x := obj3_ref v in match x with VBytes _ => dret x | _ => dfail EOther end) else if v =? 0 then dret (mk []) else d* s := read_into v in d* _ := obj3_push (mk s) in dret (mk s)) ->
  gets3 n D (singles b ++ piece Content s) d e (fun d' _ => rel T d').
Proof.
  intros _ Hb HT D HD. destruct HD as [-> | ->]; (eapply (g3_bind n n); [lia|apply g3_u29_val; exact Hb|]; intros d' a (-> & ->); cbn iota beta; destruct (list_eq_dec Z.eq_dec s []) as [->|NS];
    [eapply g3_pure; [reflexivity|exact HT]|]; apply pos_len in NS as LS; replace (len s =? 0) with false by lia; eapply g3_ext; [symmetry; apply app_nil_r|];
    eapply (g3_bind n n); [lia|apply g3_into; exact NS|]; intros d' a ->; change (@nil (kind * bytes)) with (@nil (kind * bytes) ++ []); eapply (g3_bind n n _ _ []); [lia|apply g3_push; exact HT|]; intros d' u X; eapply g3_pure; [reflexivity|exact X]).
Qed.
Theorem dec3_gets : (forall T us T', value_pieces T us T' -> GV T us T') /\ (forall T us c T', values_pieces T us c T' -> GVS T us c T') /\ (forall T us T', assoc_pieces T us T' -> GA T us T').
Proof.
  apply value_pieces_mutind.
  - intros T m Hm [|fuel] n d e Hn HT; [replace n with O by lia; apply g3_nofuel|]. cbn [dec3]. eapply g3_ext; [symmetry; apply app_nil_r|]. eapply (g3_bind n (n - 1)); [rewrite singles_weight; cbn [length]; lia|apply g3_byte|]. intros d' a (-> & ->).
    destruct Hm as [-> | [-> | [-> | ->]]]; cbn [Z.eqb Pos.eqb orb]; (eapply g3_pure; [reflexivity|exact HT]).
  - intros T v b _ Hb [|fuel] n d e Hn HT; [replace n with O by lia; apply g3_nofuel|]. cbn [dec3]. eapply (g3_bind n (n - 1)); [rewrite singles_weight; cbn [length]; lia|apply g3_byte|]. intros d' a (-> & ->). cbn [Z.eqb Pos.eqb orb].
    eapply g3_ext; [symmetry; apply app_nil_r|]. eapply (g3_bind (n - 1) (n - 1)); [lia|apply g3_u29; exact Hb|]. intros d' a (-> & ->). eapply g3_pure; [reflexivity|exact HT].
  - intros T bits Hb [|fuel] n d e Hn HT; [replace n with O by lia; apply g3_nofuel|]. cbn [dec3]. eapply (g3_bind n (n - 1)); [rewrite singles_weight; cbn [length]; lia|apply g3_byte|]. intros d' a (-> & ->). cbn [Z.eqb Pos.eqb orb].
    eapply g3_ext; [symmetry; apply app_nil_r|]. eapply (g3_bind (n - 1) (n - 1)); [lia|apply g3_double; exact Hb|]. intros d' a (-> & ->). eapply g3_pure; [reflexivity|exact HT].
  - intros T b s st Hb [|fuel] n d e Hn HT; [replace n with O by lia; apply g3_nofuel|]. cbn [dec3]. eapply (g3_bind n (n - 1)); [rewrite singles_weight; cbn [length]; lia|apply g3_byte|]. intros d' a (-> & ->). cbn [Z.eqb Pos.eqb orb].
    eapply g3_ext; [symmetry; apply app_nil_r|]. eapply (g3_bind (n - 1) (n - 1)); [lia|eapply g3_string; [exact Hb|exact (proj1 HT)]|]. intros d' a (-> & ->). eapply g3_pure; [reflexivity|]. split; [reflexivity|exact (proj2 HT)].
  - intros T m b s Hm Hb [|fuel] n d e Hn HT; [replace n with O by lia; apply g3_nofuel|]. cbn [dec3]. eapply (g3_bind n (n - 1)); [rewrite singles_weight; cbn [length]; lia|apply g3_byte|]. intros d' a (-> & ->).
    destruct Hm as [-> | ->]; cbn [Z.eqb Pos.eqb orb]; (eapply (g3_blob _ _ _ _ 7); [auto|exact Hb|exact HT|left; reflexivity]).
  - intros T k b bits Hb Hbits [|fuel] n d e Hn HT; [replace n with O by lia; apply g3_nofuel|]. cbn [dec3]. eapply (g3_bind n (n - 1)); [rewrite singles_weight; cbn [length]; lia|apply g3_byte|]. intros d' a (-> & ->). cbn [Z.eqb Pos.eqb orb].
    unfold decode_date3. eapply (g3_bind (n - 1) (n - 1)); [lia|apply g3_u29_val; exact Hb|]. intros d' a (-> & ->). cbn iota beta.
    eapply g3_ext; [symmetry; apply app_nil_r|]. eapply (g3_bind (n - 1) (n - 1)); [lia|apply g3_stamp; exact Hbits|]. intros d' a (-> & ->). cbv zeta. change (@nil (kind * bytes)) with (@nil (kind * bytes) ++ []). eapply (g3_bind (n - 1) (n - 1) _ _ []); [lia|apply g3_push; exact HT|]. intros d' u X. eapply g3_pure; [reflexivity|exact X].
  - intros T b bk T1 bd c T2 Hb HA IHA HV IHV [|fuel] n d e Hn HT; [replace n with O by lia; apply g3_nofuel|]. cbn [dec3]. eapply (g3_bind n (n - 1)); [rewrite singles_weight; cbn [length]; lia|apply g3_byte|]. intros d' a (-> & ->). cbn [Z.eqb Pos.eqb orb].
    unfold decode_array3. eapply (g3_bind (n - 1) (n - 1)); [lia|apply g3_u29_val; exact Hb|]. intros d' a (-> & ->). cbn iota beta. destruct IHA as (key & st & uk & us' & -> & Hk & IHA). rewrite <- app_assoc.
    eapply (g3_bind (n - 1) (n - 1)); [lia|eapply g3_string; [exact Hk|exact (proj1 HT)]|]. intros d' a (-> & ->).
    eapply (g3_bind (n - 1) (n - 1) _ _ []); [lia|apply (g3_push _ _ (with_strings st T)); split; [reflexivity|exact (proj2 HT)]|]. intros d1 u H1. cbn beta in H1.
    eapply (g3_bind (n - 1) (n - 1) _ _ []); [lia|apply (g3_alloc _ (with_strings st T)); exact H1|]. intros d2 loc H2. cbn beta in H2.
    eapply (g3_bind (n - 1) (n - 1)); [lia|apply IHA; [lia|lia|exact H2]|]. intros d3 u3 H3. cbn beta in H3.
    eapply g3_ext; [symmetry; apply app_nil_r|]. eapply (g3_bind (n - 1) (n - 1)); [lia|apply (IHV fuel (n - 1)%nat d3 e); [lia|exact H3|lia]|]. intros d4 u4 H4. cbn beta in H4. eapply g3_pure; [reflexivity|exact H4].
  - intros T b ty props T1 bv T2 Htr HV IHV [|fuel] n d e Hn HT; [replace n with O by lia; apply g3_nofuel|]. cbn [dec3]. eapply (g3_bind n (n - 1)); [rewrite singles_weight; cbn [length]; lia|apply g3_byte|]. intros d' a (-> & ->). cbn [Z.eqb Pos.eqb orb].
    destruct (g3_traits _ _ _ _ Htr) as (b0 & us' & v & -> & Hb & Htell). unfold decode_object3. rewrite <- app_assoc. eapply (g3_bind (n - 1) (n - 1)); [lia|apply g3_u29_val; exact Hb|]. intros d' a (-> & ->). cbn iota beta.
    eapply (g3_bind (n - 1) (n - 1)); [lia|apply Htell; [lia|exact HT]|]. intros d1 t (-> & H1).
    eapply (g3_bind (n - 1) (n - 1) _ _ []); [lia|apply (g3_push _ _ T1); exact H1|]. intros d2 u H2. cbn beta in H2. cbn [t_ext plain t_props t_dyn snd fst].
    eapply (g3_bind (n - 1) (n - 1) _ _ []); [lia|apply (g3_alloc _ T1); exact H2|]. intros d3 loc H3. cbn beta in H3.
    eapply g3_ext; [symmetry; apply app_nil_r|]. eapply (g3_bind (n - 1) (n - 1)); [lia|apply (IHV fuel (n - 1)%nat d3 e); [lia|exact H3|reflexivity]|]. intros d4 u4 H4. cbn beta in H4. eapply g3_pure; [reflexivity|exact H4].
  - intros T b s Hb [|fuel] n d e Hn HT; [replace n with O by lia; apply g3_nofuel|]. cbn [dec3]. eapply (g3_bind n (n - 1)); [rewrite singles_weight; cbn [length]; lia|apply g3_byte|]. intros d' a (-> & ->). cbn [Z.eqb Pos.eqb orb].
    eapply (g3_blob _ _ _ _ 12); [auto|exact Hb|exact HT|right; reflexivity].
  - intros T fuel n d e Hn HT. split.
    + intros k Hk. eapply (g3_pure _ _ _ d []); [intros r; destruct k; reflexivity|exact HT].
    + intros keys loc Hl. destruct keys; [|discriminate]. eapply g3_pure; [reflexivity|exact HT].
  - intros T b T1 bs c T2 H1 IH1 H2 IH2 fuel n d e Hn HT. pose proof (value_weight _ _ _ H1) as HW. split.
    + intros [|k] Hk; [replace n with O by lia; apply g3_nofuel|]. cbn [loop_n]. replace (Z.of_nat (S c) <=? 0) with false by lia. replace (Z.of_nat (S c) - 1) with (Z.of_nat c) by lia.
      eapply (g3_bind n (n - 1)); [lia|apply IH1; [exact Hn|exact HT]|]. intros d1 a H3. cbn beta in H3. eapply g3_ext; [symmetry; apply app_nil_r|]. eapply (g3_bind (n - 1) (n - 1)); [lia|apply (IH2 fuel (n - 1)%nat d1 e); [lia|exact H3|lia]|]. intros d2 a2 H4. cbn beta in H4. eapply g3_pure; [reflexivity|exact H4].
    + intros [|key keys] loc Hl; [discriminate|]. cbn [length] in Hl. cbn [props_loop]. eapply (g3_bind n (n - 1)); [lia|apply IH1; [exact Hn|exact HT]|]. intros d1 a H3. cbn beta in H3.
      eapply (g3_bind (n - 1) (n - 1) _ _ []); [lia|apply (g3_set _ _ _ _ T1); exact H3|]. intros d2 u H4. cbn beta in H4. apply (IH2 fuel (n - 1)%nat d2 e); [lia|exact H4|lia].
  - intros T b st Hb. exists [], st, b, []. split; [symmetry; apply app_nil_r|]. split; [exact Hb|]. intros fuel n k d e loc Hn Hk HT. rewrite assoc_loop_nil. eapply g3_pure; [reflexivity|exact HT].
  - intros T bk k st bv T1 bs T2 Hk Hne H1 IH1 H2 IH2. destruct IH2 as (key2 & st2 & uk & us' & -> & Hk2 & IH2). exists k, st, bk, (bv ++ uk ++ us'). split; [reflexivity|]. split; [exact Hk|].
    intros fuel n [|f] d e loc Hn Hf HT; [replace n with O by lia; apply g3_nofuel|]. cbn [assoc_loop]. destruct k as [|k0 k]; [congruence|]. pose proof (value_weight _ _ _ H1) as HW.
    eapply (g3_bind n (n - 1)); [lia|apply IH1; [exact Hn|exact HT]|]. intros d1 a H3. cbn beta in H3.
    eapply (g3_bind (n - 1) (n - 1) _ _ []); [lia|apply (g3_set _ _ _ _ T1); exact H3|]. intros d2 u H4. cbn beta in H4.
    eapply (g3_bind (n - 1) (n - 1)); [lia|eapply g3_string; [exact Hk2|exact (proj1 H4)]|]. intros d' a' (-> & ->). apply IH2; [lia|lia|]. split; [reflexivity|exact (proj2 H4)].
Qed.


(** * More fuel, same outcome *)
Definition more {A} (m m' : Dm A) : Prop := forall d, snd (m d) <> OutOfFuel -> m' d = m d.
Lemma more_refl {A} (m : Dm A) : more m m. Proof. intros d _. reflexivity. Qed.
Lemma more_bind {A B} (m m' : Dm A) (k k' : A -> Dm B) : more m m' -> (forall a, more (k a) (k' a)) -> more (dbind m k) (dbind m' k').
Proof. intros H1 H2 d H. unfold dbind in *. rewrite H1 by (intros X; destruct (m d) as [d1 [?|?| |]]; cbn [snd] in *; congruence). destruct (m d) as [d1 [a|?| |]]; [|reflexivity..]. apply H2, H. Qed.
Lemma more_out {A} (m : Dm A) : more (fun d => (d, OutOfFuel)) m. Proof. intros d H. destruct (H eq_refl). Qed.
Lemma more_loop {A} (m m' : Dm A) : more m m' -> forall f f' n, (f <= f')%nat -> more (loop_n m f n) (loop_n m' f' n).
Proof.
  intros H. induction f as [|f IH]; intros f' n L.
  - cbn [loop_n]. destruct (n <=? 0) eqn:E; [|apply more_out]. destruct f'; cbn [loop_n]; rewrite E; apply more_refl.
  - destruct f' as [|f']; [lia|]. cbn [loop_n]. destruct (n <=? 0); [apply more_refl|]. apply more_bind; [exact H|]. intros v. apply more_bind; [apply IH; lia|]. intros. apply more_refl.
Qed.
Lemma more_flags : forall f f', (f <= f')%nat -> more (read_flags f) (read_flags f').
Proof. induction f as [|f IH]; intros [|f'] L; try apply more_out; [lia|]. cbn [read_flags]. apply more_bind; [apply more_refl|]. intros b. destruct (Z.land b 128 =? 0); [apply more_refl|]. apply more_bind; [apply IH; lia|]. intros. apply more_refl. Qed.
Section More.
  Variables dec dec' : Dm value.
  Hypothesis HD : more dec dec'.
  Lemma more_named l fl names : forall p, more (ext_named dec l fl p names) (ext_named dec' l fl p names).
  Proof. induction names as [|x names IH]; intros p; cbn [ext_named]; [apply more_refl|]. apply more_bind; [|intros; apply IH]. destruct (_ =? 1); [|apply more_refl]. apply more_bind; [exact HD|]. intros. apply more_refl. Qed.
  Lemma more_extra l i fl js : more (ext_extra dec l i fl js) (ext_extra dec' l i fl js).
  Proof. induction js as [|x js IH]; cbn [ext_extra]; [apply more_refl|]. apply more_bind; [|intros; apply IH]. destruct (_ =? 1); [|apply more_refl]. apply more_bind; [exact HD|]. intros. apply more_refl. Qed.
  Lemma more_ext_flags l fs : forall i fields, more (ext_flags dec l i fields fs) (ext_flags dec' l i fields fs).
  Proof. induction fs as [|x fs IH]; intros i fields; cbn [ext_flags]; [apply more_refl|]. cbv zeta. apply more_bind; [apply more_named|]. intros. apply more_bind; [|intros; apply IH]. destruct (_ =? 0); [apply more_refl|apply more_extra]. Qed.
  Lemma more_external f f' l fields : (f <= f')%nat -> more (decode_external dec f l fields) (decode_external dec' f' l fields).
  Proof. intros L. unfold decode_external. apply more_bind; [apply more_flags, L|]. intros. apply more_ext_flags. Qed.
  Lemma more_abstract f f' : (f <= f')%nat -> more (decode_abstract dec f) (decode_abstract dec' f').
  Proof. intros L. unfold decode_abstract. apply more_bind; [apply more_refl|]. intros. apply more_bind; [apply more_external, L|]. intros. apply more_refl. Qed.
  Lemma more_async f f' : (f <= f')%nat -> more (decode_async dec f) (decode_async dec' f').
  Proof. intros L. unfold decode_async. apply more_bind; [apply more_abstract, L|]. intros. apply more_bind; [apply more_external, L|]. intros. apply more_refl. Qed.
  Lemma more_ack f f' : (f <= f')%nat -> more (decode_ack dec f) (decode_ack dec' f').
  Proof. intros L. unfold decode_ack. apply more_bind; [apply more_async, L|]. intros. apply more_bind; [apply more_external, L|]. intros. apply more_refl. Qed.
  Lemma more_assoc l : forall f f' key, (f <= f')%nat -> more (assoc_loop dec f l key) (assoc_loop dec' f' l key).
  Proof.
    induction f as [|f IH]; intros f' key L; [destruct key; [destruct f'; apply more_refl|apply more_out]|]. destruct f' as [|f']; [lia|]. destruct key; cbn [assoc_loop]; [apply more_refl|].
    apply more_bind; [exact HD|]. intros. apply more_bind; [apply more_refl|]. intros. apply more_bind; [apply more_refl|]. intros. apply IH. lia.
  Qed.
  Lemma more_props l keys : more (props_loop dec l keys) (props_loop dec' l keys).
  Proof. induction keys as [|k keys IH]; cbn [props_loop]; [apply more_refl|]. apply more_bind; [exact HD|]. intros. apply more_bind; [apply more_refl|]. intros. apply IH. Qed.
  Lemma more_dyn l : forall f f', (f <= f')%nat -> more (dyn_loop dec f l) (dyn_loop dec' f' l).
  Proof. induction f as [|f IH]; intros [|f'] L; try apply more_out; [lia|]. cbn [dyn_loop]. apply more_bind; [apply more_refl|]. intros [|c k]; [apply more_refl|]. apply more_bind; [exact HD|]. intros. apply more_bind; [apply more_refl|]. intros. apply IH. lia. Qed.
  Lemma more_trait f f' v : (f <= f')%nat -> more (decode_trait f v) (decode_trait f' v).
  Proof. intros L. unfold decode_trait. destruct (_ =? 0); [apply more_refl|]. cbv zeta. apply more_bind; [apply more_refl|]. intros. apply more_bind; [apply more_loop; [apply more_refl|exact L]|]. intros. apply more_refl. Qed.
  Lemma more_array f f' : (f <= f')%nat -> more (decode_array3 dec f) (decode_array3 dec' f').
  Proof.
    intros L. unfold decode_array3. apply more_bind; [apply more_refl|]. intros [is_ref v]. destruct is_ref; [apply more_refl|]. apply more_bind; [apply more_refl|]. intros. apply more_bind; [apply more_refl|]. intros. apply more_bind; [apply more_refl|]. intros.
    apply more_bind; [apply more_assoc, L|]. intros. apply more_bind; [apply more_loop; [exact HD|exact L]|]. intros. apply more_refl.
  Qed.
  Lemma more_object f f' : (f <= f')%nat -> more (decode_object3 dec f) (decode_object3 dec' f').
  Proof.
    intros L. unfold decode_object3. apply more_bind; [apply more_refl|]. intros [is_ref v]. destruct is_ref; [apply more_refl|]. apply more_bind; [apply more_trait, L|]. intros t. apply more_bind; [apply more_refl|]. intros. destruct (t_ext t).
    - unfold decode_externalizable. destruct (bytes_eqb _ _); [apply more_bind; [apply more_async, L|]; intros; apply more_refl|]. destruct (bytes_eqb _ _); [apply more_bind; [apply more_ack, L|]; intros; apply more_refl|].
      destruct (bytes_eqb _ _); [apply more_bind; [exact HD|]; intros; apply more_refl|apply more_refl].
    - apply more_bind; [apply more_refl|]. intros. apply more_bind; [apply more_props|]. intros. apply more_bind; [|intros; apply more_refl]. destruct (t_dyn t); [apply more_dyn, L|apply more_refl].
  Qed.
End More.
Theorem dec3_fuel : forall f f', (f <= f')%nat -> more (dec3 f) (dec3 f').
Proof.
  induction f as [|f IH]; intros [|f'] L; try apply more_out; [lia|]. cbn [dec3]. apply more_bind; [apply more_refl|]. intros m.
  repeat match goal with |- more (if ?b then _ else _) (if ?b then _ else _) => destruct b; [first [apply more_refl | apply more_array; [apply IH; lia|lia] | apply more_object; [apply IH; lia|lia]]|] end. apply more_refl.
Qed.
