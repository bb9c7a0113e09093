(** AMF3 documents and their pieces (Spec/Amf3Trunc.v). *)
From Verif Require Import Base.Go Base.GoFacts Base.IO Base.Float64 Proofs.IOFacts Model.AmfTypes Model.Amf3 Model.Amf0 Spec.Amf Spec.AmfDoc Spec.Amf3Doc Spec.Amf3Trunc
  Proofs.AmfFacts Proofs.AmfContr Proofs.Amf0RT Proofs.Amf0More Proofs.Amf0Doc Proofs.Amf3Enc Proofs.Amf3RT Proofs.Amf3Doc Proofs.Amf3More Proofs.AmfTame Proofs.AmfHeap Proofs.Amf3Trunc.

(** * The pieces are those of the documents of C126 *)
Lemma vr_split st b s st' : utf8vr st b s st' -> exists us, vr_pieces st us s st' /\ piece_bytes us = b.
Proof.
  intros H. inversion H; subst.
  - exists (singles b). split; [eapply vrp_ref; eassumption|apply piece_bytes_singles].
  - exists (singles b). split; [apply vrp_empty; assumption|apply piece_bytes_singles].
  - exists (singles b0 ++ piece Text s). split; [apply vrp_lit; assumption|]. rewrite piece_bytes_app, piece_bytes_singles, piece_bytes_piece. reflexivity.
Qed.
Lemma vrs_split st b ss st' : utf8vrs st b ss st' -> exists us, vrs_pieces st us ss st' /\ piece_bytes us = b.
Proof.
  induction 1 as [st|st b s st1 bs ss st2 H _ (us & P & E)]; [exists []; split; [constructor|reflexivity]|]. destruct (vr_split _ _ _ _ H) as (u & P1 & E1). exists (u ++ us). split; [econstructor; eassumption|]. rewrite piece_bytes_app. congruence.
Qed.
Lemma traits_split T b c T' : traits3 false T b c T' -> exists us, traits_pieces T us c T' /\ piece_bytes us = b.
Proof.
  intros H. inversion H; subst.
  - exists (singles b). split; [eapply trp_ref; eassumption|apply piece_bytes_singles].
  - destruct H0 as [-> | [H0 _]]; [|discriminate]. destruct (vr_split _ _ _ _ H2) as (u1 & P1 & <-). destruct (vrs_split _ _ _ _ H3) as (u2 & P2 & <-). exists (singles b0 ++ u1 ++ u2). split; [econstructor; try eassumption; replace (16 * len props + 3) with (16 * len props + 4 * 0 + 3) by lia; assumption|]. rewrite !piece_bytes_app, piece_bytes_singles. reflexivity.
Qed.
Lemma value_split loose : (forall T b p T', value3 loose T b p T' -> loose = false -> exists us, value_pieces T us T' /\ piece_bytes us = b) /\
  (forall T b ps T', values3 loose T b ps T' -> loose = false -> exists us, values_pieces T us (length ps) T' /\ piece_bytes us = b) /\
  (forall T b fs T', assoc3 loose T b fs T' -> loose = false -> exists us, assoc_pieces T us T' /\ piece_bytes us = b).
Proof.
  apply value3_mutind.
  1-4: intros T _; match goal with |- exists us, _ /\ _ = [?m] => exists (singles [m]) end; (split; [apply vp_byte; auto|reflexivity]).
  - intros T n b Hn Hb L. exists (singles [4] ++ singles b). split; [eapply vp_integer; [destruct Hn; [eassumption|congruence]|exact Hb]|]. rewrite piece_bytes_app, !piece_bytes_singles. reflexivity.
  - intros T bits Hb _. exists (singles [5] ++ piece Whole (be64 bits)). split; [apply vp_double; exact Hb|]. rewrite piece_bytes_app, piece_bytes_singles, piece_bytes_piece. reflexivity.
  - intros T b s st Hb _. destruct (vr_split _ _ _ _ Hb) as (u & P & <-). exists (singles [6] ++ u). split; [eapply vp_string; eassumption|]. rewrite piece_bytes_app, piece_bytes_singles. reflexivity.
  - intros T m b s Hm Hb _. exists (singles [m] ++ singles b ++ piece Content s). split; [apply vp_xml; assumption|]. rewrite !piece_bytes_app, !piece_bytes_singles, piece_bytes_piece. reflexivity.
  - intros T k b bits Hb Hbits _. exists (singles [8] ++ singles b ++ piece Stamp (be64 bits)). split; [eapply vp_date; eassumption|]. rewrite !piece_bytes_app, !piece_bytes_singles, piece_bytes_piece. reflexivity.
  - intros T b bk assoc T1 bd dense T2 Hb _ IHA _ IHV L. destruct (IHA L) as (u1 & P1 & <-). destruct (IHV L) as (u2 & P2 & <-). exists (singles [9] ++ singles b ++ u1 ++ u2). split; [eapply vp_array; [exact Hb|exact P1|exact P2]|]. rewrite !piece_bytes_app, !piece_bytes_singles. reflexivity.
  - intros T b ty props T1 bv vs T2 Htr _ IHV HL L. subst loose. destruct (traits_split _ _ _ _ Htr) as (u1 & P1 & <-). destruct (IHV eq_refl) as (u2 & P2 & <-). rewrite HL in P2. exists (singles [10] ++ u1 ++ u2). split; [eapply vp_object; eassumption|]. rewrite !piece_bytes_app, piece_bytes_singles. reflexivity.
  - intros T b s Hb _. exists (singles [12] ++ singles b ++ piece Content s). split; [apply vp_bytes; assumption|]. rewrite !piece_bytes_app, !piece_bytes_singles, piece_bytes_piece. reflexivity.
  - intros; congruence.
  - intros T _. exists []. split; [constructor|reflexivity].
  - intros T b p T1 bs ps T2 _ IH1 _ IH2 L. destruct (IH1 L) as (u1 & P1 & <-). destruct (IH2 L) as (u2 & P2 & <-). exists (u1 ++ u2). split; [cbn [length]; econstructor; eassumption|apply piece_bytes_app].
  - intros T b st Hb _. destruct (vr_split _ _ _ _ Hb) as (u & P & <-). exists u. split; [constructor; exact P|reflexivity].
  - intros T bk k st bv p T1 bs fs T2 Hk Hne _ IH1 _ IH2 L. destruct (vr_split _ _ _ _ Hk) as (u & P & <-). destruct (IH1 L) as (u1 & P1 & <-). destruct (IH2 L) as (u2 & P2 & <-). exists (u ++ u1 ++ u2). split; [econstructor; eassumption|]. rewrite !piece_bytes_app. reflexivity.
Qed.
Lemma vr_join st us s st' : vr_pieces st us s st' -> utf8vr st (piece_bytes us) s st'.
Proof. intros H. inversion H; subst; rewrite ?piece_bytes_app, ?piece_bytes_singles, ?piece_bytes_piece; econstructor; eassumption. Qed.
Lemma vrs_join st us ss st' : vrs_pieces st us ss st' -> utf8vrs st (piece_bytes us) ss st'.
Proof. induction 1 as [st|st b s st1 bs ss st2 H _ IH]; [constructor|]. rewrite piece_bytes_app. econstructor; [apply vr_join; exact H|exact IH]. Qed.
Lemma value_join : (forall T us T', value_pieces T us T' -> exists p, value3 false T (piece_bytes us) p T') /\
  (forall T us n T', values_pieces T us n T' -> exists ps, length ps = n /\ values3 false T (piece_bytes us) ps T') /\
  (forall T us T', assoc_pieces T us T' -> exists fs, assoc3 false T (piece_bytes us) fs T').
Proof.
  apply value_pieces_mutind.
  - intros T m [-> | [-> | [-> | ->]]]; eexists; constructor.
  - intros T n b Hn Hb. rewrite piece_bytes_app, !piece_bytes_singles. eexists. eapply v3_integer; [left; eassumption|exact Hb].
  - intros T bits Hb. rewrite piece_bytes_app, piece_bytes_singles, piece_bytes_piece. eexists. apply v3_double. exact Hb.
  - intros T b s st Hb. rewrite piece_bytes_app, piece_bytes_singles. eexists. eapply v3_string. apply vr_join. exact Hb.
  - intros T m b s Hm Hb. rewrite !piece_bytes_app, !piece_bytes_singles, piece_bytes_piece. cbn [app]. eexists. eapply v3_xml; assumption.
  - intros T k b bits Hb Hbits. rewrite !piece_bytes_app, !piece_bytes_singles, piece_bytes_piece. cbn [app]. eexists. eapply v3_date; eassumption.
  - intros T b bk T1 bd n T2 Hb _ (fs & IHA) _ (ps & L & IHV). rewrite !piece_bytes_app, !piece_bytes_singles. cbn [app]. eexists. eapply v3_array; [|exact IHA|exact IHV]. unfold len. rewrite L. exact Hb.
  - intros T b ty props T1 bv T2 Htr _ (ps & L & IHV). rewrite !piece_bytes_app, piece_bytes_singles. cbn [app]. eexists. eapply v3_object; [|exact IHV|exact L]. inversion Htr; subst.
    + rewrite piece_bytes_singles. eapply tr_ref; eassumption.
    + rewrite !piece_bytes_app, piece_bytes_singles. eapply (tr_new _ _ 0); [left; reflexivity|replace (16 * len props + 4 * 0 + 3) with (16 * len props + 3) by lia; assumption|apply vr_join; eassumption|apply vrs_join; assumption].
  - intros T b s Hb. rewrite !piece_bytes_app, !piece_bytes_singles, piece_bytes_piece. cbn [app]. eexists. eapply v3_bytes; assumption.
  - intros T. exists []. split; [reflexivity|constructor].
  - intros T b T1 bs n T2 _ (p & IH1) _ (ps & L & IH2). exists (p :: ps). split; [cbn [length]; congruence|]. rewrite piece_bytes_app. econstructor; eassumption.
  - intros T b st Hb. eexists. constructor. apply vr_join. exact Hb.
  - intros T bk k st bv T1 bs T2 Hk Hne _ (p & IH1) _ (fs & IH2). rewrite !piece_bytes_app. eexists. econstructor; [apply vr_join; exact Hk|exact Hne|exact IH1|exact IH2].
Qed.

(** * Content may be replaced by other content of the same length *)
Definition alike (x y : kind * bytes) : Prop := x = y \/ fst x = Content /\ fst y = Content /\ len (snd x) = len (snd y).
Lemma alike_singles b : forall us, Forall2 alike (singles b) us -> us = singles b.
Proof. induction b as [|x b IH]; intros us H; inversion H as [|? y ? ys [E|[E _]] H2]; subst; [reflexivity| |discriminate]. cbn [singles map]. f_equal. apply IH. exact H2. Qed.
Lemma alike_vr st us s st' vs : vr_pieces st us s st' -> Forall2 alike us vs -> vs = us.
Proof.
  intros H F. inversion H; subst; try (apply alike_singles; exact F). apply Forall2_app_inv_l in F. destruct F as (a & b' & F1 & F2 & ->). apply alike_singles in F1 as ->. f_equal. destruct s as [|x s]; [congruence|]. inversion F2 as [|? y ? ys [E|[E _]] F3]; subst; [|discriminate]. inversion F3. reflexivity.
Qed.
Lemma alike_vrs st us ss st' : vrs_pieces st us ss st' -> forall vs, Forall2 alike us vs -> vs = us.
Proof. induction 1 as [st|st b s st1 bs ss st2 H _ IH]; intros vs F; [inversion F; reflexivity|]. apply Forall2_app_inv_l in F. destruct F as (a & b' & F1 & F2 & ->). rewrite (alike_vr _ _ _ _ _ H F1), (IH _ F2). reflexivity. Qed.
Lemma alike_traits T us c T' vs : traits_pieces T us c T' -> Forall2 alike us vs -> vs = us.
Proof.
  intros H F. inversion H; subst; [apply alike_singles; exact F|]. apply Forall2_app_inv_l in F. destruct F as (a & b' & F1 & F2 & ->). apply Forall2_app_inv_l in F2. destruct F2 as (a2 & b2' & F2 & F3 & ->).
  rewrite (alike_singles _ _ F1), (alike_vr _ _ _ _ _ H1 F2), (alike_vrs _ _ _ _ H2 _ F3). reflexivity.
Qed.
Lemma alike_piece k s vs : k <> Content -> Forall2 alike (piece k s) vs -> vs = piece k s.
Proof. intros NK F. destruct s as [|x s]; inversion F as [|? y ? ys [E|[E _]] F3]; subst; [reflexivity| |cbn in E; congruence]. inversion F3. reflexivity. Qed.
Lemma alike_content s vs : Forall2 alike (piece Content s) vs -> exists s', vs = piece Content s' /\ len s' = len s.
Proof.
  intros F. destruct s as [|x s]; inversion F as [|? y ? ys [E|(_ & E & L)] F3]; subst; [exists []; auto|inversion F3; exists (x :: s); auto|]. destruct y as [k s']. cbn [fst snd] in *. subst k. inversion F3; subst. exists s'. split; [|congruence]. destruct s'; [unfold len in L; cbn [length] in L; lia|reflexivity].
Qed.
Lemma alike_value : (forall T us T', value_pieces T us T' -> forall vs, Forall2 alike us vs -> value_pieces T vs T') /\
  (forall T us n T', values_pieces T us n T' -> forall vs, Forall2 alike us vs -> values_pieces T vs n T') /\
  (forall T us T', assoc_pieces T us T' -> forall vs, Forall2 alike us vs -> assoc_pieces T vs T').
Proof.
  apply value_pieces_mutind;
  intros; repeat match goal with F : Forall2 alike (_ ++ _) _ |- _ => apply Forall2_app_inv_l in F; let a := fresh "a" in let b := fresh "b" in destruct F as (a & b & ? & F & ->) end;
  repeat match goal with
  | F : Forall2 alike (singles _) _ |- _ => apply alike_singles in F; subst
  | H : vr_pieces _ ?us _ _, F : Forall2 alike ?us _ |- _ => apply (alike_vr _ _ _ _ _ H) in F; subst
  | H : traits_pieces _ ?us _ _, F : Forall2 alike ?us _ |- _ => apply (alike_traits _ _ _ _ _ H) in F; subst
  | F : Forall2 alike (piece Content _) _ |- _ => apply alike_content in F; let s := fresh "s" in let L := fresh "L" in destruct F as (s & -> & L)
  | F : Forall2 alike (piece _ _) _ |- _ => apply alike_piece in F; [subst|discriminate]
  | F : Forall2 alike [] _ |- _ => inversion F; subst; clear F
  end.
  - apply vp_byte; assumption.
  - eapply vp_integer; eassumption.
  - apply vp_double; assumption.
  - eapply vp_string; eassumption.
  - apply vp_xml; [assumption|rewrite L; assumption].
  - eapply vp_date; eassumption.
  - eapply vp_array; eauto.
  - eapply vp_object; eauto.
  - apply vp_bytes; rewrite L; assumption.
  - constructor.
  - econstructor; eauto.
  - constructor; assumption.
  - econstructor; eauto.
Qed.

(** * No piece is empty, and no date stands after content *)
Fixpoint calm (c : bool) (us : pieces) : Prop := match us with [] => True | (k, s) :: us' => s <> [] /\ (c = true -> k <> Stamp) /\ calm (match k with Content => true | _ => false end) us' end.
Lemma calm_any c us : calm true us -> calm c us.
Proof. destruct us as [|[k s] us]; [auto|]. intros (A & B & C). cbn [calm]. auto. Qed.
Lemma calm_app us vs : forall c, calm c us -> calm true vs -> calm c (us ++ vs).
Proof. induction us as [|[k s] us IH]; intros c A B; [apply calm_any; exact B|]. destruct A as (A1 & A2 & A3). cbn [app calm]. split; [exact A1|]. split; [exact A2|]. apply IH; assumption. Qed.
Lemma calm_singles b vs : b <> [] -> calm false vs -> calm true (singles b ++ vs).
Proof.
  intros NB HV. assert (G : calm true (singles b ++ vs) /\ calm false (singles b ++ vs)); [|exact (proj1 G)]. clear - NB HV. induction b as [|x b IH]; [congruence|]. cbn [singles map app calm]. destruct b as [|y b].
  - cbn [map app]. repeat split; try discriminate; assumption.
  - destruct (IH ltac:(discriminate)) as [_ IH2]. change (map (fun x0 => (Whole, [x0])) (y :: b)) with (singles (y :: b)). split; (split; [discriminate|]; split; [discriminate|exact IH2]).
Qed.
Lemma u29_ne v b : u29 v b -> b <> [].
Proof. intros H ->. apply u29_nonempty in H. cbn [length] in H. lia. Qed.
Lemma calm_s b : b <> [] -> calm true (singles b).
Proof. intros H. rewrite <- (app_nil_r (singles b)). apply calm_singles; [exact H|exact I]. Qed.
Lemma calm_piece k s : calm false (piece k s).
Proof. destruct s; [exact I|]. cbn [piece calm]. repeat split; discriminate. Qed.
Lemma calm_vr st us s st' : vr_pieces st us s st' -> calm true us.
Proof. intros H. inversion H; subst; [apply calm_s; eapply u29_ne; eassumption..|]. apply calm_singles; [eapply u29_ne; eassumption|apply calm_piece]. Qed.
Lemma calm_vrs st us ss st' : vrs_pieces st us ss st' -> calm true us.
Proof. induction 1; [exact I|]. apply calm_app; [eapply calm_vr; eassumption|assumption]. Qed.
Lemma calm_traits T us c T' : traits_pieces T us c T' -> calm true us.
Proof. intros H. inversion H; subst; [apply calm_s; eapply u29_ne; eassumption|]. apply calm_app; [apply calm_s; eapply u29_ne; eassumption|]. apply calm_app; [eapply calm_vr; eassumption|eapply calm_vrs; eassumption]. Qed.
Lemma calm_value : (forall T us T', value_pieces T us T' -> calm true us) /\ (forall T us n T', values_pieces T us n T' -> calm true us) /\ (forall T us T', assoc_pieces T us T' -> calm true us).
Proof.
  apply value_pieces_mutind; intros; try exact I;
  repeat match goal with
  | |- calm true (singles ?b ++ piece _ _) => apply calm_singles; [first [discriminate|eapply u29_ne; eassumption]|apply calm_piece]
  | |- calm true (_ ++ _) => apply calm_app
  | |- calm true (singles _) => apply calm_s; first [discriminate|eapply u29_ne; eassumption]
  | H : vr_pieces _ ?u _ _ |- calm true ?u => eapply calm_vr; exact H
  | H : traits_pieces _ ?u _ _ |- calm true ?u => eapply calm_traits; exact H
  end; assumption.
Qed.

(** * Where the input stops decides the outcome *)
Lemma shift_quiet k s us p : stops_quietly us p -> stops_quietly ((k, s) :: us) (s ++ p).
Proof.
  intros [(a & k' & s' & b & -> & -> & N)|(a & s' & x & y & w & b & -> & -> & E)]; [left; exists ((k, s) :: a), k', s', b|right; exists ((k, s) :: a), s', x, y, w, b]; repeat split; auto; try apply E. rewrite piece_bytes_cons, app_assoc. reflexivity.
Qed.
Lemma shift_in k' k s us p : stops_in k' us p -> stops_in k' ((k, s) :: us) (s ++ p).
Proof. intros (a & s' & b & x & y & -> & -> & E). exists ((k, s) :: a), s', b, x, y. split; [reflexivity|]. split; [rewrite piece_bytes_cons, app_assoc; reflexivity|exact E]. Qed.
Lemma shift_date k s us p : stops_at_date us p -> stops_at_date ((k, s) :: us) (s ++ p).
Proof. intros (a & s' & b & -> & ->). exists ((k, s) :: a), s', b. split; reflexivity. Qed.
Lemma shift_last k s us p : stops_in_last us p -> stops_in_last ((k, s) :: us) (s ++ p).
Proof. intros (a & s' & x & y & -> & -> & E). exists ((k, s) :: a), s', x, y. split; [reflexivity|]. split; [rewrite piece_bytes_cons, app_assoc; reflexivity|exact E]. Qed.
Definition not_ended (us : pieces) (p : bytes) : Prop := stops_quietly us p \/ stops_in Whole us p \/ (stops_in Text us p \/ stops_in Stamp us p \/ stops_at_date us p) \/ stops_in_last us p.
Lemma stops_shift k s us p : not_ended us p -> not_ended ((k, s) :: us) (s ++ p).
Proof. intros [H|[H|[[H|[H|H]]|H]]]; unfold not_ended; [left; apply shift_quiet; exact H|right; left; apply shift_in; exact H|do 2 right; left..|do 3 right; apply shift_last; exact H]; [left; apply shift_in; exact H|right; left; apply shift_in; exact H|do 2 right; apply shift_date; exact H]. Qed.
Lemma stops_somewhere3 us : forall c p q, calm c us -> piece_bytes us = p ++ q -> q <> [] -> not_ended us p.
Proof.
  induction us as [|[k s] us IH]; intros c p q HC E NQ; [destruct p, q; try discriminate; congruence|]. destruct HC as (NS & _ & HC). rewrite piece_bytes_cons in E. apply app_eq_app in E. destruct E as (l & [(E & E2)|(-> & E2)]).
  - destruct (list_eq_dec Z.eq_dec p []) as [->|NP].
    + cbn [app] in E. subst l. destruct k; try (left; left; eexists [], _, _, us; repeat split; discriminate). right; right; left; right; right. exists [], s, us. split; reflexivity.
    + destruct (list_eq_dec Z.eq_dec l []) as [->|NL].
      * rewrite app_nil_r in E. subst p. cbn [app] in E2. pose proof (stops_shift k s us [] (IH _ [] q HC (eq_sym E2) NQ)) as X. rewrite app_nil_r in X. exact X.
      * assert (S : stops_in k ((k, s) :: us) p) by (exists [], s, us, p, l; repeat split; auto). destruct k; [right; left; exact S|right; right; left; left; exact S|right; right; left; right; left; exact S|].
        destruct us as [|w us]; [do 3 right; exists [], s, p, l; repeat split; auto|left; right; exists [], s, p, l, w, us; repeat split; auto].
  - apply stops_shift. apply (IH _ l q HC E2 NQ).
Qed.
Lemma calm_end us : forall c vs, calm c (us ++ vs) -> exists c', calm c' vs.
Proof. induction us as [|[k s] us IH]; intros c vs H; [exists c; exact H|]. destruct H as (_ & _ & H). eapply IH. exact H. Qed.
Lemma cut_at e a k s b : s <> [] -> cut3 e (a ++ (k, s) :: b) (len (piece_bytes a)) = Some (match k with Stamp => EOther | _ => e_err e end).
Proof. intros NS. apply pos_len in NS. rewrite cut3_past by lia. rewrite Z.sub_diag. cbn [cut3]. replace (len s <=? 0) with false by lia. reflexivity. Qed.
Lemma cut_inside e a k x y b : x <> [] -> y <> [] -> cut3 e (a ++ (k, x ++ y) :: b) (len (piece_bytes a ++ x)) =
  match k with Whole => Some (early (e_err e) [0]) | Text | Stamp => Some EOther | Content => if len (piece_bytes b) =? 0 then None else cut3 e b 0 end.
Proof.
  intros NX NY. apply pos_len in NX. apply pos_len in NY. rewrite len_app, cut3_past by lia. replace (len (piece_bytes a) + len x - len (piece_bytes a)) with (len x) by lia. cbn [cut3]. rewrite len_app. replace (len x + len y <=? len x) with false by lia. replace (len x =? 0) with false by lia. reflexivity.
Qed.
Lemma quiet_error us p e : calm true us -> stops_quietly us p -> cut3 e us (len p) = Some (e_err e).
Proof.
  intros HC [(a & k & s & b & -> & -> & N)|(a & s & x & y & [k w] & b & -> & -> & -> & NX & NY)].
  - destruct (calm_end _ _ _ HC) as (c' & NS & _ & _). rewrite cut_at by exact NS. destruct k; congruence.
  - destruct (calm_end _ _ _ HC) as (c' & _ & _ & NW & NS & _). rewrite cut_inside by assumption. apply pos_len in NW. rewrite piece_bytes_cons, len_app. pose proof (len_nonneg (piece_bytes b)). replace (len w + len (piece_bytes b) =? 0) with false by lia.
    cbn [cut3]. replace (len w <=? 0) with false by lia. cbn [Z.eqb]. specialize (NS eq_refl). destruct k; congruence.
Qed.
