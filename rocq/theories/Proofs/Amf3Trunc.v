(** AMF3 documents of which only the beginning is there. *)
From Verif Require Import Base.Go Base.GoFacts Base.IO Base.Float64 Proofs.IOFacts Model.AmfTypes Model.Amf3 Model.Amf0 Spec.Amf Spec.AmfDoc Spec.Amf3Doc Spec.Amf3Trunc
  Proofs.AmfFacts Proofs.AmfContr Proofs.Amf0RT Proofs.Amf0Doc Proofs.Amf3Enc Proofs.Amf3RT Proofs.Amf3Doc Proofs.Amf3More.
Local Ltac Zify.zify_post_hook ::= Z.div_mod_to_equations.

(** * The outcome: an error, or success with zeros for what is missing *)
Fixpoint cut3 (e : rend) (us : pieces) (n : Z) : option err :=
  match us with
  | [] => None
  | (k, s) :: us' =>
      if len s <=? n then cut3 e us' (n - len s)
      else if n =? 0 then Some (match k with Stamp => EOther | _ => e_err e end)
      else match k with Whole => Some (early (e_err e) [0]) | Text | Stamp => Some EOther | Content => if len (piece_bytes us') =? 0 then None else cut3 e us' 0 end
  end.
Fixpoint weight (us : pieces) : nat := match us with [] => O | (k, s) :: us' => (match k with Content => O | _ => length s end + weight us')%nat end.
Lemma piece_bytes_app us vs : piece_bytes (us ++ vs) = piece_bytes us ++ piece_bytes vs.
Proof. unfold piece_bytes. rewrite map_app, concat_app. reflexivity. Qed.
Lemma piece_bytes_cons k s us : piece_bytes ((k, s) :: us) = s ++ piece_bytes us.
Proof. reflexivity. Qed.
Lemma piece_bytes_singles b : piece_bytes (singles b) = b.
Proof. unfold piece_bytes, singles. rewrite map_map. cbn [snd]. induction b as [|x b IH]; [reflexivity|]. cbn [map concat app]. rewrite IH. reflexivity. Qed.
Lemma piece_bytes_piece k s : piece_bytes (piece k s) = s.
Proof. destruct s; [reflexivity|]. unfold piece, piece_bytes. cbn [map concat snd]. apply app_nil_r. Qed.
Lemma weight_app us vs : weight (us ++ vs) = (weight us + weight vs)%nat.
Proof. induction us as [|[k s] us IH]; [reflexivity|]. cbn [app weight]. lia. Qed.
Lemma weight_bytes us : (weight us <= length (piece_bytes us))%nat.
Proof. induction us as [|[k s] us IH]; [cbn; lia|]. rewrite piece_bytes_cons, app_length. cbn [weight]. destruct k; lia. Qed.
Lemma cut3_0 e us : 0 < len (piece_bytes us) -> exists x, cut3 e us 0 = Some x.
Proof.
  induction us as [|[k s] us IH]; intros H; [change (len (piece_bytes [])) with 0 in H; lia|]. rewrite piece_bytes_cons, len_app in H. cbn [cut3]. pose proof (len_nonneg s). destruct (Z.leb_spec (len s) 0).
  - replace (0 - len s) with 0 by lia. apply IH. lia.
  - eexists. reflexivity.
Qed.
Lemma cut3_past e us vs : forall n, len (piece_bytes us) <= n -> cut3 e (us ++ vs) n = cut3 e vs (n - len (piece_bytes us)).
Proof.
  induction us as [|[k s] us IH]; intros n H; [cbn [app]; change (len (piece_bytes [])) with 0; f_equal; lia|]. rewrite piece_bytes_cons, len_app in *. pose proof (len_nonneg (piece_bytes us)). cbn [app cut3]. replace (len s <=? n) with true by lia. rewrite IH by lia. f_equal. lia.
Qed.
Lemma cut3_in e us vs : forall n, 0 <= n < len (piece_bytes us) ->
  cut3 e (us ++ vs) n = match cut3 e us n with Some x => Some x | None => if len (piece_bytes vs) =? 0 then None else cut3 e vs 0 end.
Proof.
  induction us as [|[k s] us IH]; intros n H; [change (len (piece_bytes [])) with 0 in H; lia|]. rewrite piece_bytes_cons, len_app in H. cbn [app cut3]. destruct (Z.leb_spec (len s) n); [apply IH; lia|].
  destruct (n =? 0); [reflexivity|]. destruct k; try reflexivity. rewrite piece_bytes_app, len_app. pose proof (len_nonneg (piece_bytes us)). pose proof (len_nonneg (piece_bytes vs)). destruct (Z.eqb_spec (len (piece_bytes us)) 0) as [E|E].
  - rewrite E, Z.add_0_l. destruct (len (piece_bytes vs) =? 0); [reflexivity|]. rewrite cut3_past by lia. f_equal. lia.
  - replace (len (piece_bytes us) + len (piece_bytes vs) =? 0) with false by lia. apply IH. lia.
Qed.
Lemma cut3_none e us : forall n, 0 <= n < len (piece_bytes us) -> cut3 e us n = None -> Z.of_nat (weight us) <= n.
Proof.
  induction us as [|[k s] us IH]; intros n H E; [change (len (piece_bytes [])) with 0 in H; lia|]. rewrite piece_bytes_cons, len_app in H. cbn [cut3 weight] in *. destruct (Z.leb_spec (len s) n).
  - specialize (IH (n - len s) ltac:(lia) E). unfold len in *. destruct k; lia.
  - destruct (n =? 0); [discriminate|]. destruct k; try discriminate. destruct (Z.eqb_spec (len (piece_bytes us)) 0) as [X|X]; [pose proof (weight_bytes us); unfold len in *; lia|]. pose proof (len_nonneg (piece_bytes us)). destruct (cut3_0 e us ltac:(lia)). congruence.
Qed.

(** * Steps *)
Definition at_ (d : dstate) (s : bytes) (e : rend) : dstate := set_r (contr s e) d.
Definition tells3 {A} (n : nat) (m : Dm A) (us : pieces) (d : dstate) (e : rend) (Q : dstate -> A -> Prop) : Prop :=
  ((weight us < n)%nat -> exists d1 a, Q d1 a /\ forall rest, m (at_ d (piece_bytes us ++ rest) e) = (at_ d1 rest e, Ok a)) /\
  (forall s q, piece_bytes us = s ++ q -> q <> [] -> (length s < n)%nat ->
   match cut3 e us (len s) with
   | Some x => snd (m (at_ d s e)) = Err x
   | None => exists d1 a, Q d1 a /\ m (at_ d s e) = (at_ d1 [] e, Ok a) /\ m (at_ d (s ++ repeat 0 (length q)) e) = (at_ d1 [] e, Ok a)
   end).
Lemma pos_len (q : bytes) : q <> [] -> 0 < len q.
Proof. destruct q; [congruence|]. intros _. rewrite len_cons. pose proof (len_nonneg q). lia. Qed.
Lemma t3_bind {A B} n n' (m : Dm A) (k : A -> Dm B) us vs d e Q R : (n <= n' + weight us)%nat -> tells3 n m us d e Q -> (forall d' a, Q d' a -> tells3 n' (k a) vs d' e R) ->
  tells3 n (dbind m k) (us ++ vs) d e R.
Proof.
  intros Hn [HF HC] Hk. pose proof (weight_bytes us) as WB. split.
  - intros HW. rewrite weight_app in HW. destruct (HF ltac:(lia)) as (d1 & a & Q1 & E1). destruct (Hk d1 a Q1) as [KF _]. destruct (KF ltac:(lia)) as (d2 & b & R2 & E2). exists d2, b. split; [exact R2|].
    intros rest. rewrite piece_bytes_app, <- app_assoc. unfold dbind. rewrite E1. apply E2.
  - intros s q E HQ HL. rewrite piece_bytes_app in E.
    assert (BB : forall l, s = piece_bytes us ++ l -> piece_bytes vs = l ++ q -> match cut3 e (us ++ vs) (len s) with Some x => snd (dbind m k (at_ d s e)) = Err x | None => exists d1 a, R d1 a /\ dbind m k (at_ d s e) = (at_ d1 [] e, Ok a) /\ dbind m k (at_ d (s ++ repeat 0 (length q)) e) = (at_ d1 [] e, Ok a) end).
    { intros l -> E2. rewrite app_length in HL. destruct (HF ltac:(lia)) as (d1 & a & Q1 & E1). destruct (Hk d1 a Q1) as [_ KC]. specialize (KC l q E2 HQ ltac:(lia)). pose proof (len_nonneg l). rewrite cut3_past by (rewrite len_app; lia). rewrite len_app.
      replace (len (piece_bytes us) + len l - len (piece_bytes us)) with (len l) by lia. rewrite <- app_assoc. unfold dbind. rewrite !E1. exact KC. }
    apply app_eq_app in E. destruct E as (l & [(E & E2)|(E & E2)]); [|apply (BB l E E2)].
    destruct (list_eq_dec Z.eq_dec l []) as [->|NL]; [apply (BB []); [rewrite app_nil_r in *; auto|cbn [app] in *; auto]|]. clear BB.
    specialize (HC s l E NL HL). apply pos_len in NL as LL. pose proof (len_nonneg s). rewrite cut3_in by (rewrite E, len_app; lia). destruct (cut3 e us (len s)) as [x|] eqn:EC.
    + unfold dbind. destruct (m (at_ d s e)) as [d1 [a|y| |]]; cbn [snd] in *; try discriminate. injection HC as ->. reflexivity.
    + destruct HC as (d1 & a & Q1 & E1 & E1'). assert (WS : Z.of_nat (weight us) <= len s) by (apply (cut3_none e); [rewrite E, len_app; lia|exact EC]). unfold len in WS. destruct (Hk d1 a Q1) as [KF KC].
      destruct (Z.eqb_spec (len (piece_bytes vs)) 0) as [EV|EV].
      * assert (PV0 : piece_bytes vs = []) by (apply len_zero; exact EV). rewrite PV0, app_nil_r in E2. subst q. pose proof (weight_bytes vs) as WV. rewrite PV0 in WV. cbn [length] in WV. destruct (KF ltac:(lia)) as (d2 & b & R2 & E2). exists d2, b. split; [exact R2|].
        specialize (E2 []). rewrite PV0 in E2. cbn [app] in E2. unfold dbind. rewrite E1, E1'. auto.
      * pose proof (len_nonneg (piece_bytes vs)). destruct (cut3_0 e vs ltac:(lia)) as [x EX]. specialize (KC [] (piece_bytes vs) eq_refl). change (len (@nil Z)) with 0 in KC. rewrite EX in *. unfold dbind. rewrite E1. apply KC; [|cbn [length]; lia]. intros Y. rewrite Y in EV. apply EV. reflexivity.
Qed.
Lemma t3_pure {A} n (m : Dm A) d d1 a e (Q : dstate -> A -> Prop) : (forall r, m (set_r r d) = (set_r r d1, Ok a)) -> Q d1 a -> tells3 n m [] d e Q.
Proof. intros E HQ. split; [intros _; exists d1, a; split; [exact HQ|]; intros rest; apply E|]. intros s q X NQ. destruct s, q; try discriminate. congruence. Qed.
Lemma t3_ext {A} n (m : Dm A) us vs d e (Q : dstate -> A -> Prop) : vs = us -> tells3 n m us d e Q -> tells3 n m vs d e Q.
Proof. intros ->. auto. Qed.
Lemma t3_weak {A} n (m : Dm A) us d e (Q R : dstate -> A -> Prop) : (forall d' a, Q d' a -> R d' a) -> tells3 n m us d e Q -> tells3 n m us d e R.
Proof.
  intros H [HF HC]. split; [intros W; destruct (HF W) as (d1 & a & Q1 & E1); exists d1, a; auto|]. intros s q E NQ HL. specialize (HC s q E NQ HL). destruct (cut3 e us (len s)); [exact HC|]. destruct HC as (d1 & a & Q1 & X). exists d1, a. auto.
Qed.
Lemma t3_nofuel {A} (m : Dm A) us d e (Q : dstate -> A -> Prop) : tells3 0 m us d e Q.
Proof. split; intros; lia. Qed.

Definition is {A} (x : A) (d d' : dstate) (a : A) : Prop := d' = d /\ a = x.
Lemma cut3_one e k s n : 0 < n < len s -> cut3 e [(k, s)] n = match k with Whole => Some (early (e_err e) [0]) | Text | Stamp => Some EOther | Content => None end.
Proof. intros H. cbn [cut3]. replace (len s <=? n) with false by lia. replace (n =? 0) with false by lia. destruct k; reflexivity. Qed.
Lemma cut3_first e k s : s <> [] -> cut3 e [(k, s)] 0 = Some (match k with Stamp => EOther | _ => e_err e end).
Proof. intros H. apply pos_len in H. cbn [cut3]. replace (len s <=? 0) with false by lia. reflexivity. Qed.
Lemma piece_ne k s : s <> [] -> piece k s = [(k, s)].
Proof. destruct s; [congruence|reflexivity]. Qed.
Lemma empty_byte d e : read_byte (at_ d [] e) = (at_ d [] e, Err (e_err e)).
Proof. reflexivity. Qed.
Lemma t3_byte n b d e : tells3 n read_byte (singles [b]) d e (is b d).
Proof.
  split.
  - intros _. exists d, b. split; [split; reflexivity|]. intros rest. rewrite piece_bytes_singles. apply (read_byte_contr (at_ d ([b] ++ rest) e) b rest e eq_refl).
  - intros s q E NQ _. rewrite piece_bytes_singles in E. destruct s as [|x s]; [|exfalso; destruct s; [injection E as E1 E2; congruence|discriminate]]. reflexivity.
Qed.
Lemma singles_cut e b : forall n, 0 <= n < len b -> cut3 e (singles b) n = Some (e_err e).
Proof.
  induction b as [|x b IH]; intros n H; [change (len (@nil Z)) with 0 in H; lia|]. rewrite len_cons in H. cbn [singles map cut3]. change (len [x]) with 1. destruct (Z.leb_spec 1 n); [apply (IH (n - 1)); lia|]. replace (n =? 0) with true by lia. reflexivity.
Qed.
Lemma u29_short d v b : u29 v b -> forall s q e, b = s ++ q -> q <> [] -> snd (read_u29 (at_ d s e)) = Err (e_err e).
Proof.
  intros Hu s q e E NQ. unfold read_u29. inversion Hu; clear Hu; subst; destruct s as [|x1 [|x2 [|x3 [|x4 s]]]]; cbn [app] in *;
  try match goal with H : [] = _ |- _ => fail 1 | H : _ :: _ = _ :: _ |- _ => inversion H; subst; clear H end; try congruence; try reflexivity;
  repeat match goal with
  | |- context [dbind read_byte _ (at_ d (?x :: ?t) e)] => rewrite (dbind_ok read_byte _ (at_ d (x :: t) e) _ _ (read_byte_contr (at_ d (x :: t) e) x t e eq_refl)); rewrite land128 by (unfold byte; lia); replace (x <? 128) with false by lia; cbn [Z.eqb]
  | |- context [dbind read_byte _ (set_r (contr (?x :: ?t) e) ?dd)] => change (set_r (contr (x :: t) e) dd) with (at_ d (x :: t) e)
  end; try reflexivity;
  match goal with H : [] = ?a ++ ?b |- _ => symmetry in H; apply app_eq_nil in H; destruct H; congruence | _ => idtac end.
Qed.
Lemma t3_u29 n v b d e : u29 v b -> tells3 n read_u29 (singles b) d e (is v d).
Proof.
  intros Hu. split.
  - intros _. exists d, v. split; [split; reflexivity|]. intros rest. rewrite piece_bytes_singles. exact (read_u29_any_form (at_ d (b ++ rest) e) v b rest e Hu eq_refl).
  - intros s q E NQ _. rewrite piece_bytes_singles in E. apply pos_len in NQ as L. pose proof (len_nonneg s). rewrite singles_cut by (rewrite E, len_app; lia). eapply u29_short; eassumption.
Qed.
Lemma t3_u29_val n k b d e : u29 (2 * k + 1) b -> tells3 n decode_u29 (singles b) d e (is (false, k) d).
Proof.
  intros Hu. unfold decode_u29. eapply t3_ext; [symmetry; apply app_nil_r|]. eapply (t3_bind n n); [lia|apply t3_u29; exact Hu|]. intros d' a (-> & ->). eapply t3_pure; [reflexivity|]. split; [reflexivity|].
  change 1 with (2 ^ 1 - 1) at 2. rewrite land_ones, shiftr_div by lia. change (2 ^ 1) with 2. replace ((2 * k + 1) mod 2 =? 0) with false by lia. replace ((2 * k + 1) / 2) with k by lia. reflexivity.
Qed.
Lemma t3_u29_ref n k b d e : u29 (2 * k) b -> tells3 n decode_u29 (singles b) d e (is (true, k) d).
Proof.
  intros Hu. unfold decode_u29. eapply t3_ext; [symmetry; apply app_nil_r|]. eapply (t3_bind n n); [lia|apply t3_u29; exact Hu|]. intros d' a (-> & ->). eapply t3_pure; [reflexivity|]. split; [reflexivity|].
  change 1 with (2 ^ 1 - 1) at 1. rewrite land_ones, shiftr_div by lia. change (2 ^ 1) with 2. replace ((2 * k) mod 2 =? 0) with true by lia. replace ((2 * k) / 2) with k by lia. reflexivity.
Qed.
Lemma t3_text n s d e : s <> [] -> tells3 n (read_bytes (len s)) (piece Text s) d e (is s d).
Proof.
  intros NS. apply pos_len in NS as LS. split.
  - intros _. exists d, s. split; [split; reflexivity|]. intros rest. rewrite piece_bytes_piece. exact (read_bytes_contr (at_ d (s ++ rest) e) s rest e eq_refl LS).
  - intros u q E NQ _. rewrite piece_bytes_piece in E. apply pos_len in NQ as LQ. rewrite piece_ne by exact NS. unfold read_bytes. cbn [at_ set_r d_r]. destruct (list_eq_dec Z.eq_dec u []) as [->|NU].
    + change (len (@nil Z)) with 0. rewrite cut3_first by exact NS. rewrite read_none by lia. reflexivity.
    + apply pos_len in NU as LU. rewrite cut3_one by (rewrite E, len_app; lia). rewrite read_short by (try exact NU; rewrite E, len_app; lia). cbn [snd]. replace (len u =? len s) with false by (rewrite E, len_app; lia). replace (len u =? 0) with false by lia. reflexivity.
Qed.
Lemma t3_into n s d e : s <> [] -> tells3 n (read_into (len s)) (piece Content s) d e (fun d' _ => d' = d).
Proof.
  intros NS. apply pos_len in NS as LS. split.
  - intros _. exists d, s. split; [reflexivity|]. intros rest. rewrite piece_bytes_piece. exact (read_into_contr (at_ d (s ++ rest) e) s rest e eq_refl LS).
  - intros u q E NQ _. rewrite piece_bytes_piece in E. apply pos_len in NQ as LQ. rewrite piece_ne by exact NS. destruct (list_eq_dec Z.eq_dec u []) as [->|NU].
    + change (len (@nil Z)) with 0. rewrite cut3_first by exact NS. unfold read_into. cbn [at_ set_r d_r]. rewrite read_none by lia. reflexivity.
    + apply pos_len in NU as LU. rewrite cut3_one by (rewrite E, len_app; lia). exists d, (u ++ repeat 0 (length q)). split; [reflexivity|]. split.
      * unfold read_into. cbn [at_ set_r d_r]. rewrite read_short by (try exact NU; rewrite E, len_app; lia). replace (Z.to_nat (len s - len u)) with (length q) by (rewrite E, len_app; unfold len; lia). reflexivity.
      * assert (LL : len s = len (u ++ repeat 0 (length q))) by (rewrite E, !len_app; unfold len; rewrite repeat_length; lia). rewrite LL. rewrite <- (app_nil_r (u ++ repeat 0 (length q))) at 2. apply (read_into_contr (at_ d ((u ++ repeat 0 (length q)) ++ []) e) (u ++ repeat 0 (length q)) [] e eq_refl). lia.
Qed.
Lemma be_cut x u q d e : x <> [] -> x = u ++ q -> q <> [] -> snd (read_be (len x) (at_ d u e)) = Err (if len u =? 0 then e_err e else early (e_err e) [0]).
Proof.
  intros NX E NQ. apply pos_len in NX. apply pos_len in NQ. assert (LX : len x = len u + len q) by (rewrite E, len_app; reflexivity). unfold read_be, read_full. cbn [at_ set_r d_r]. unfold contr. cbn [r_chunks r_end r_with]. destruct u as [|z u]; [reflexivity|].
  cbn [read_full_chunks]. replace (len (z :: u) <? len x) with true by lia. cbn [snd app]. pose proof (len_nonneg u). rewrite len_cons. replace (1 + len u =? 0) with false by lia. reflexivity.
Qed.
Lemma t3_double n bits d e : 0 <= bits < 2 ^ 64 -> tells3 n (read_be 8) (piece Whole (be64 bits)) d e (is bits d).
Proof.
  intros Hb. change 8 with (len (be64 bits)). split.
  - intros _. exists d, bits. split; [split; reflexivity|]. intros rest. rewrite piece_bytes_piece. rewrite (read_be_contr (at_ d (be64 bits ++ rest) e) (be64 bits) rest e eq_refl) by reflexivity. rewrite be_val_be64, Z.mod_small by exact Hb. reflexivity.
  - intros u q E NQ _. rewrite piece_bytes_piece in E. rewrite piece_ne by discriminate. rewrite (be_cut _ u q) by (try discriminate; assumption). apply pos_len in NQ. pose proof (len_nonneg u). destruct (Z.eqb_spec (len u) 0) as [->|NU]; [rewrite cut3_first by discriminate; reflexivity|]. rewrite cut3_one by (rewrite E, len_app; lia). reflexivity.
Qed.
Lemma t3_stamp n bits d e : 0 <= bits < 2 ^ 64 -> tells3 n (fun d => match read_be 8 d with (d', Err _) => (d', Err EOther) | x => x end) (piece Stamp (be64 bits)) d e (is bits d).
Proof.
  intros Hb. change 8 with (len (be64 bits)). split.
  - intros _. exists d, bits. split; [split; reflexivity|]. intros rest. rewrite piece_bytes_piece. rewrite (read_be_contr (at_ d (be64 bits ++ rest) e) (be64 bits) rest e eq_refl) by reflexivity. rewrite be_val_be64, Z.mod_small by exact Hb. reflexivity.
  - intros u q E NQ _. rewrite piece_bytes_piece in E. rewrite piece_ne by discriminate. pose proof (be_cut (be64 bits) u q d e ltac:(discriminate) E NQ) as X. apply pos_len in NQ. pose proof (len_nonneg u).
    replace (cut3 e [(Stamp, be64 bits)] (len u)) with (Some EOther) by (destruct (Z.eqb_spec (len u) 0) as [->|NU]; [rewrite cut3_first by discriminate; reflexivity|rewrite cut3_one by (rewrite E, len_app; lia); reflexivity]).
    destruct (read_be (len (be64 bits)) (at_ d u e)) as [d1 [a|y| |]]; cbn [snd] in *; try discriminate. reflexivity.
Qed.

(** * Strings and traits *)
Lemma t3_string n st us s st' d e : vr_pieces st us s st' -> d_str3 d = st -> tells3 n decode_string3 us d e (is s (set_str3 st' d)).
Proof.
  intros Hv Hs. unfold decode_string3. inversion Hv; subst.
  - eapply t3_ext; [symmetry; apply app_nil_r|]. eapply (t3_bind n n); [lia|apply t3_u29_ref; eassumption|]. intros d' a (-> & ->). cbn iota beta.
    assert (L : (i < length (d_str3 d))%nat) by (apply nth_error_Some; congruence). eapply (t3_pure _ _ _ d s); [|split; [destruct d; reflexivity|reflexivity]]. intros r. cbn [d_str3 set_r]. unfold len. replace (Z.of_nat (length (d_str3 d)) <=? Z.of_nat i) with false by lia. rewrite Nat2Z.id. rewrite (nth_error_nth _ _ _ H0). reflexivity.
  - eapply t3_ext; [symmetry; apply app_nil_r|]. eapply (t3_bind n n); [lia|apply (t3_u29_val n 0); eassumption|]. intros d' a (-> & ->). cbn iota beta. eapply (t3_pure _ _ _ d []); [reflexivity|]. split; [destruct d; reflexivity|reflexivity].
  - eapply (t3_bind n n); [lia|apply t3_u29_val; eassumption|]. intros d' a (-> & ->). cbn iota beta. apply pos_len in H as LS. replace (len s =? 0) with false by lia.
    eapply t3_ext; [symmetry; apply app_nil_r|]. eapply (t3_bind n n); [lia|apply t3_text; assumption|]. intros d' a (-> & ->). apply (t3_pure _ _ _ (set_str3 (d_str3 d ++ [s]) d) s); [intros r; reflexivity|]. split; reflexivity.
Qed.
Lemma singles_weight b : weight (singles b) = length b.
Proof. induction b as [|x b IH]; [reflexivity|]. cbn [singles map weight length]. change (map (fun x => (Whole, [x])) b) with (singles b). lia. Qed.
Lemma vr_weight st us s st' : vr_pieces st us s st' -> (1 <= weight us)%nat.
Proof. intros H. inversion H; subst; rewrite ?weight_app, ?singles_weight; match goal with H : u29 _ _ |- _ => pose proof (u29_nonempty _ _ H) end; lia. Qed.
Lemma t3_strings st us ss st' : vrs_pieces st us ss st' -> forall n k d e, (n <= k)%nat -> d_str3 d = st -> tells3 n (loop_n decode_string3 k (len ss)) us d e (is ss (set_str3 st' d)).
Proof.
  induction 1 as [st|st b s st1 bs ss st2 H HS IH]; intros n k d e Hk Hs.
  - eapply (t3_pure _ _ _ d []); [intros r; destruct k; reflexivity|]. subst st. split; [destruct d; reflexivity|reflexivity].
  - destruct k as [|k]; [replace n with 0%nat by lia; apply t3_nofuel|]. cbn [loop_n]. rewrite len_cons. pose proof (len_nonneg ss). replace (1 + len ss <=? 0) with false by lia. replace (1 + len ss - 1) with (len ss) by lia.
    eapply (t3_bind n (n - 1)); [pose proof (vr_weight _ _ _ _ H); lia|eapply t3_string; eassumption|]. intros d' a (-> & ->).
    eapply t3_ext; [symmetry; apply app_nil_r|]. eapply (t3_bind (n - 1) (n - 1)); [lia|apply IH; [lia|reflexivity]|]. intros d' a (-> & ->). eapply t3_pure; [reflexivity|]. split; [destruct d; reflexivity|reflexivity].
Qed.
Lemma t3_traits T us c T' : traits_pieces T us c T' -> exists b us' v, us = singles b ++ us' /\ u29 (2 * v + 1) b /\
  forall n k d e, (n <= k)%nat -> rel T d -> tells3 n (decode_trait k v) us' d e (fun d' t => t = plain c /\ rel T' d').
Proof.
  intros H. inversion H; subst.
  - exists b, [], (2 * Z.of_nat i). split; [symmetry; apply app_nil_r|]. split; [replace (2 * (2 * Z.of_nat i) + 1) with (4 * Z.of_nat i + 1) by lia; exact H0|]. intros n k d e Hk [RS RT].
    unfold decode_trait. change 1 with (2 ^ 1 - 1) at 1. rewrite land_ones by lia. replace ((2 * Z.of_nat i) mod 2 ^ 1 =? 0) with true by (change (2 ^ 1) with 2; lia).
    assert (L : (i < length (t_classes T'))%nat) by (apply nth_error_Some; congruence). eapply (t3_pure _ _ _ d (plain c)); [|split; [reflexivity|split; assumption]]. intros r. cbv zeta. cbn [d_trait3 set_r].
    rewrite shiftr_div by lia. change (2 ^ 1) with 2. replace (2 * Z.of_nat i / 2) with (Z.of_nat i) by lia. rewrite RT. unfold len. rewrite map_length. replace (Z.of_nat (length (t_classes T')) <=? Z.of_nat i) with false by lia. rewrite Nat2Z.id.
    apply f_equal2; [reflexivity|]. f_equal. apply nth_error_nth. apply map_nth_error. exact H1.
  - pose proof (len_nonneg props) as HL. exists b, (b1 ++ b2), (8 * len props + 1). split; [reflexivity|]. split; [replace (2 * (8 * len props + 1) + 1) with (16 * len props + 3) by lia; exact H0|]. intros n k d e Hk [RS RT].
    unfold decode_trait. change 1 with (2 ^ 1 - 1) at 2. rewrite land_ones by lia. replace ((8 * len props + 1) mod 2 ^ 1 =? 0) with false by (change (2 ^ 1) with 2; lia). cbv zeta. rewrite !not_bit0 by auto.
    eapply (t3_bind n n); [lia|eapply t3_string; eassumption|]. intros d' a (-> & ->). rewrite shiftr_div by lia. change (2 ^ 3) with 8. replace ((8 * len props + 1) / 8) with (len props) by lia.
    eapply t3_ext; [symmetry; apply app_nil_r|]. eapply (t3_bind n n); [lia|eapply t3_strings; [eassumption|exact Hk|reflexivity]|]. intros d' a (-> & ->). eapply (t3_pure _ _ _ (set_trait3 (d_trait3 d ++ [mkTrait ty false false props]) (set_str3 st2 d))); [intros r; reflexivity|]. split; [reflexivity|]. split; [reflexivity|]. cbn [d_trait3 set_trait3 set_str3 t_classes]. rewrite RT, map_app. reflexivity.
Qed.

(** * Values *)
Lemma t3_push n v T d e : rel T d -> tells3 n (obj3_push v) [] d e (fun d' _ => rel T d').
Proof. intros H. apply (t3_pure _ _ _ (set_obj3 (d_obj3 d ++ [v]) d) tt); [intros r; reflexivity|exact H]. Qed.
Lemma t3_alloc n T d e : rel T d -> tells3 n alloc [] d e (fun d' _ => rel T d').
Proof. intros H. apply (t3_pure _ _ _ (set_heap (d_heap d ++ [[]]) d) (length (d_heap d))); [intros r; reflexivity|exact H]. Qed.
Lemma t3_set n l k v T d e : rel T d -> tells3 n (obj_set l k v) [] d e (fun d' _ => rel T d').
Proof. intros H. apply (t3_pure _ _ _ (set_heap (upd_nth l (map_set k v) (d_heap d)) d) tt); [intros r; reflexivity|exact H]. Qed.
Scheme value_pieces_mind := Minimality for value_pieces Sort Prop
  with values_pieces_mind := Minimality for values_pieces Sort Prop
  with assoc_pieces_mind := Minimality for assoc_pieces Sort Prop.
Combined Scheme value_pieces_mutind from value_pieces_mind, values_pieces_mind, assoc_pieces_mind.
Lemma value_weight T us T' : value_pieces T us T' -> (1 <= weight us)%nat.
Proof. intros H. inversion H; rewrite ?weight_app, singles_weight; cbn [length]; lia. Qed.
Definition TV (T : tables) (us : pieces) (T' : tables) : Prop := forall fuel n d e, (n <= fuel)%nat -> rel T d -> tells3 n (dec3 fuel) us d e (fun d' _ => rel T' d').
Definition TVS (T : tables) (us : pieces) (c : nat) (T' : tables) : Prop := forall fuel n d e, (n <= fuel)%nat -> rel T d ->
  (forall k, (n <= k)%nat -> tells3 n (loop_n (dec3 fuel) k (Z.of_nat c)) us d e (fun d' _ => rel T' d')) /\
  (forall keys loc, length keys = c -> tells3 n (props_loop (dec3 fuel) loc keys) us d e (fun d' _ => rel T' d')).
Definition TA (T : tables) (us : pieces) (T' : tables) : Prop := exists key st uk us', us = uk ++ us' /\ vr_pieces (t_strings T) uk key st /\
  forall fuel n k d e loc, (n <= fuel)%nat -> (n <= k)%nat -> rel (with_strings st T) d -> tells3 n (assoc_loop (dec3 fuel) k loc key) us' d e (fun d' _ => rel T' d').
Lemma assoc_loop_nil dec k loc : assoc_loop dec k loc [] = dret tt.
Proof. destruct k; reflexivity. Qed.
Lemma t3_blob n T b s m d e (mk : bytes -> value) : m = 7 \/ m = 11 \/ m = 12 -> u29 (2 * len s + 1) b -> rel T d -> forall D : Dm value,
  D = (d* (is_ref, v) := decode_u29 in if is_ref then (d* x := obj3_ref v in match x with VStr _ => dret x | _ => dfail EOther end) else if v =? 0 then dret (mk []) else d* s := read_into v in d* _ := obj3_push (mk s) in dret (mk s)) \/
  D = (d* (is_ref, v) := decode_u29 in if is_ref then (d* x := obj3_ref v in match x with VBytes _ => dret x | _ => dfail EOther end) else if v =? 0 then dret (mk []) else d* s := read_into v in d* _ := obj3_push (mk s) in dret (mk s)) ->
  tells3 n D (singles b ++ piece Content s) d e (fun d' _ => rel T d').
Proof.
  intros _ Hb HT D HD. destruct HD as [-> | ->]; (eapply (t3_bind n n); [lia|apply t3_u29_val; exact Hb|]; intros d' a (-> & ->); cbn iota beta; destruct (list_eq_dec Z.eq_dec s []) as [->|NS];
    [eapply t3_pure; [reflexivity|exact HT]|]; apply pos_len in NS as LS; replace (len s =? 0) with false by lia; eapply t3_ext; [symmetry; apply app_nil_r|];
    eapply (t3_bind n n); [lia|apply t3_into; exact NS|]; intros d' a ->; change (@nil (kind * bytes)) with (@nil (kind * bytes) ++ []); eapply (t3_bind n n _ _ []); [lia|apply t3_push; exact HT|]; intros d' u X; eapply t3_pure; [reflexivity|exact X]).
Qed.
Theorem dec3_tells : (forall T us T', value_pieces T us T' -> TV T us T') /\ (forall T us c T', values_pieces T us c T' -> TVS T us c T') /\ (forall T us T', assoc_pieces T us T' -> TA T us T').
Proof.
  apply value_pieces_mutind.
  - intros T m Hm [|fuel] n d e Hn HT; [replace n with O by lia; apply t3_nofuel|]. cbn [dec3]. eapply t3_ext; [symmetry; apply app_nil_r|]. eapply (t3_bind n (n - 1)); [rewrite singles_weight; cbn [length]; lia|apply t3_byte|]. intros d' a (-> & ->).
    destruct Hm as [-> | [-> | [-> | ->]]]; cbn [Z.eqb Pos.eqb orb]; (eapply t3_pure; [reflexivity|exact HT]).
  - intros T v b _ Hb [|fuel] n d e Hn HT; [replace n with O by lia; apply t3_nofuel|]. cbn [dec3]. eapply (t3_bind n (n - 1)); [rewrite singles_weight; cbn [length]; lia|apply t3_byte|]. intros d' a (-> & ->). cbn [Z.eqb Pos.eqb orb].
    eapply t3_ext; [symmetry; apply app_nil_r|]. eapply (t3_bind (n - 1) (n - 1)); [lia|apply t3_u29; exact Hb|]. intros d' a (-> & ->). eapply t3_pure; [reflexivity|exact HT].
  - intros T bits Hb [|fuel] n d e Hn HT; [replace n with O by lia; apply t3_nofuel|]. cbn [dec3]. eapply (t3_bind n (n - 1)); [rewrite singles_weight; cbn [length]; lia|apply t3_byte|]. intros d' a (-> & ->). cbn [Z.eqb Pos.eqb orb].
    eapply t3_ext; [symmetry; apply app_nil_r|]. eapply (t3_bind (n - 1) (n - 1)); [lia|apply t3_double; exact Hb|]. intros d' a (-> & ->). eapply t3_pure; [reflexivity|exact HT].
  - intros T b s st Hb [|fuel] n d e Hn HT; [replace n with O by lia; apply t3_nofuel|]. cbn [dec3]. eapply (t3_bind n (n - 1)); [rewrite singles_weight; cbn [length]; lia|apply t3_byte|]. intros d' a (-> & ->). cbn [Z.eqb Pos.eqb orb].
    eapply t3_ext; [symmetry; apply app_nil_r|]. eapply (t3_bind (n - 1) (n - 1)); [lia|eapply t3_string; [exact Hb|exact (proj1 HT)]|]. intros d' a (-> & ->). eapply t3_pure; [reflexivity|]. split; [reflexivity|exact (proj2 HT)].
  - intros T m b s Hm Hb [|fuel] n d e Hn HT; [replace n with O by lia; apply t3_nofuel|]. cbn [dec3]. eapply (t3_bind n (n - 1)); [rewrite singles_weight; cbn [length]; lia|apply t3_byte|]. intros d' a (-> & ->).
    destruct Hm as [-> | ->]; cbn [Z.eqb Pos.eqb orb]; (eapply (t3_blob _ _ _ _ 7); [auto|exact Hb|exact HT|left; reflexivity]).
  - intros T k b bits Hb Hbits [|fuel] n d e Hn HT; [replace n with O by lia; apply t3_nofuel|]. cbn [dec3]. eapply (t3_bind n (n - 1)); [rewrite singles_weight; cbn [length]; lia|apply t3_byte|]. intros d' a (-> & ->). cbn [Z.eqb Pos.eqb orb].
    unfold decode_date3. eapply (t3_bind (n - 1) (n - 1)); [lia|apply t3_u29_val; exact Hb|]. intros d' a (-> & ->). cbn iota beta.
    eapply t3_ext; [symmetry; apply app_nil_r|]. eapply (t3_bind (n - 1) (n - 1)); [lia|apply t3_stamp; exact Hbits|]. intros d' a (-> & ->). cbv zeta. change (@nil (kind * bytes)) with (@nil (kind * bytes) ++ []). eapply (t3_bind (n - 1) (n - 1) _ _ []); [lia|apply t3_push; exact HT|]. intros d' u X. eapply t3_pure; [reflexivity|exact X].
  - intros T b bk T1 bd c T2 Hb HA IHA HV IHV [|fuel] n d e Hn HT; [replace n with O by lia; apply t3_nofuel|]. cbn [dec3]. eapply (t3_bind n (n - 1)); [rewrite singles_weight; cbn [length]; lia|apply t3_byte|]. intros d' a (-> & ->). cbn [Z.eqb Pos.eqb orb].
    unfold decode_array3. eapply (t3_bind (n - 1) (n - 1)); [lia|apply t3_u29_val; exact Hb|]. intros d' a (-> & ->). cbn iota beta. destruct IHA as (key & st & uk & us' & -> & Hk & IHA). rewrite <- app_assoc.
    eapply (t3_bind (n - 1) (n - 1)); [lia|eapply t3_string; [exact Hk|exact (proj1 HT)]|]. intros d' a (-> & ->).
    eapply (t3_bind (n - 1) (n - 1) _ _ []); [lia|apply (t3_push _ _ (with_strings st T)); split; [reflexivity|exact (proj2 HT)]|]. intros d1 u H1. cbn beta in H1.
    eapply (t3_bind (n - 1) (n - 1) _ _ []); [lia|apply (t3_alloc _ (with_strings st T)); exact H1|]. intros d2 loc H2. cbn beta in H2.
    eapply (t3_bind (n - 1) (n - 1)); [lia|apply IHA; [lia|lia|exact H2]|]. intros d3 u3 H3. cbn beta in H3.
    eapply t3_ext; [symmetry; apply app_nil_r|]. eapply (t3_bind (n - 1) (n - 1)); [lia|apply (IHV fuel (n - 1)%nat d3 e); [lia|exact H3|lia]|]. intros d4 u4 H4. cbn beta in H4. eapply t3_pure; [reflexivity|exact H4].
  - intros T b ty props T1 bv T2 Htr HV IHV [|fuel] n d e Hn HT; [replace n with O by lia; apply t3_nofuel|]. cbn [dec3]. eapply (t3_bind n (n - 1)); [rewrite singles_weight; cbn [length]; lia|apply t3_byte|]. intros d' a (-> & ->). cbn [Z.eqb Pos.eqb orb].
    destruct (t3_traits _ _ _ _ Htr) as (b0 & us' & v & -> & Hb & Htell). unfold decode_object3. rewrite <- app_assoc. eapply (t3_bind (n - 1) (n - 1)); [lia|apply t3_u29_val; exact Hb|]. intros d' a (-> & ->). cbn iota beta.
    eapply (t3_bind (n - 1) (n - 1)); [lia|apply Htell; [lia|exact HT]|]. intros d1 t (-> & H1).
    eapply (t3_bind (n - 1) (n - 1) _ _ []); [lia|apply (t3_push _ _ T1); exact H1|]. intros d2 u H2. cbn beta in H2. cbn [t_ext plain t_props t_dyn snd fst].
    eapply (t3_bind (n - 1) (n - 1) _ _ []); [lia|apply (t3_alloc _ T1); exact H2|]. intros d3 loc H3. cbn beta in H3.
    eapply t3_ext; [symmetry; apply app_nil_r|]. eapply (t3_bind (n - 1) (n - 1)); [lia|apply (IHV fuel (n - 1)%nat d3 e); [lia|exact H3|reflexivity]|]. intros d4 u4 H4. cbn beta in H4. eapply t3_pure; [reflexivity|exact H4].
  - intros T b s Hb [|fuel] n d e Hn HT; [replace n with O by lia; apply t3_nofuel|]. cbn [dec3]. eapply (t3_bind n (n - 1)); [rewrite singles_weight; cbn [length]; lia|apply t3_byte|]. intros d' a (-> & ->). cbn [Z.eqb Pos.eqb orb].
    eapply (t3_blob _ _ _ _ 12); [auto|exact Hb|exact HT|right; reflexivity].
  - intros T fuel n d e Hn HT. split.
    + intros k Hk. eapply (t3_pure _ _ _ d []); [intros r; destruct k; reflexivity|exact HT].
    + intros keys loc Hl. destruct keys; [|discriminate]. eapply t3_pure; [reflexivity|exact HT].
  - intros T b T1 bs c T2 H1 IH1 H2 IH2 fuel n d e Hn HT. pose proof (value_weight _ _ _ H1) as HW. split.
    + intros [|k] Hk; [replace n with O by lia; apply t3_nofuel|]. cbn [loop_n]. replace (Z.of_nat (S c) <=? 0) with false by lia. replace (Z.of_nat (S c) - 1) with (Z.of_nat c) by lia.
      eapply (t3_bind n (n - 1)); [lia|apply IH1; [exact Hn|exact HT]|]. intros d1 a H3. cbn beta in H3. eapply t3_ext; [symmetry; apply app_nil_r|]. eapply (t3_bind (n - 1) (n - 1)); [lia|apply (IH2 fuel (n - 1)%nat d1 e); [lia|exact H3|lia]|]. intros d2 a2 H4. cbn beta in H4. eapply t3_pure; [reflexivity|exact H4].
    + intros [|key keys] loc Hl; [discriminate|]. cbn [length] in Hl. cbn [props_loop]. eapply (t3_bind n (n - 1)); [lia|apply IH1; [exact Hn|exact HT]|]. intros d1 a H3. cbn beta in H3.
      eapply (t3_bind (n - 1) (n - 1) _ _ []); [lia|apply (t3_set _ _ _ _ T1); exact H3|]. intros d2 u H4. cbn beta in H4. apply (IH2 fuel (n - 1)%nat d2 e); [lia|exact H4|lia].
  - intros T b st Hb. exists [], st, b, []. split; [symmetry; apply app_nil_r|]. split; [exact Hb|]. intros fuel n k d e loc Hn Hk HT. rewrite assoc_loop_nil. eapply t3_pure; [reflexivity|exact HT].
  - intros T bk k st bv T1 bs T2 Hk Hne H1 IH1 H2 IH2. destruct IH2 as (key2 & st2 & uk & us' & -> & Hk2 & IH2). exists k, st, bk, (bv ++ uk ++ us'). split; [reflexivity|]. split; [exact Hk|].
    intros fuel n [|f] d e loc Hn Hf HT; [replace n with O by lia; apply t3_nofuel|]. cbn [assoc_loop]. destruct k as [|k0 k]; [congruence|]. pose proof (value_weight _ _ _ H1) as HW.
    eapply (t3_bind n (n - 1)); [lia|apply IH1; [exact Hn|exact HT]|]. intros d1 a H3. cbn beta in H3.
    eapply (t3_bind (n - 1) (n - 1) _ _ []); [lia|apply (t3_set _ _ _ _ T1); exact H3|]. intros d2 u H4. cbn beta in H4.
    eapply (t3_bind (n - 1) (n - 1)); [lia|eapply t3_string; [exact Hk2|exact (proj1 H4)]|]. intros d' a' (-> & ->). apply IH2; [lia|lia|]. split; [reflexivity|exact (proj2 H4)].
Qed.
