(** AMF0: decoding every layout of the specification. *)
From Coq Require Import Permutation.
From Verif Require Import Base.Go Base.GoFacts Base.IO Base.Float64 Proofs.IOFacts Proofs.Float64
  Model.AmfTypes Model.Amf3 Model.Amf0 Spec.Amf Spec.AmfDoc Proofs.AmfFacts Proofs.Amf0Enc Proofs.Amf0RT.

Section DocInd.
  Variable P : doc0 -> Prop.
  Hypothesis Hn : forall b, P (A_number b).
  Hypothesis Hb : forall b, P (A_boolean b).
  Hypothesis Hs : forall s, P (A_string s).
  Hypothesis Ho : forall fs, Forall (fun p => P (snd p)) fs -> P (A_object fs).
  Hypothesis H5 : P A_null.
  Hypothesis H6 : P A_undefined.
  Hypothesis Hr : forall i, P (A_reference i).
  Hypothesis Hv : forall s, P (A_avmplus s).
  Hypothesis He : forall n fs, Forall (fun p => P (snd p)) fs -> P (A_ecma n fs).
  Hypothesis Ha : forall l, Forall P l -> P (A_strict l).
  Hypothesis Hd : forall b z, P (A_date b z).
  Hypothesis Hl : forall s, P (A_long s).
  Hypothesis H13 : P A_unsupported.
  Hypothesis Hx : forall s, P (A_xml s).
  Hypothesis Ht : forall ty fs, Forall (fun p => P (snd p)) fs -> P (A_typed ty fs).
  Fixpoint doc0_ind' (t : doc0) : P t :=
    let fields := fix fields (l : list (bytes * doc0)) : Forall (fun p => P (snd p)) l :=
      match l with [] => Forall_nil _ | x :: l' => Forall_cons x (doc0_ind' (snd x)) (fields l') end in
    match t with
    | A_number b => Hn b
    | A_boolean b => Hb b
    | A_string s => Hs s
    | A_object fs => Ho fs (fields fs)
    | A_null => H5
    | A_undefined => H6
    | A_reference i => Hr i
    | A_avmplus s => Hv s
    | A_ecma n fs => He n fs (fields fs)
    | A_strict l => Ha l ((fix go l := match l return Forall P l with [] => Forall_nil _ | x :: l' => Forall_cons x (doc0_ind' x) (go l') end) l)
    | A_date b z => Hd b z
    | A_long s => Hl s
    | A_unsupported => H13
    | A_xml s => Hx s
    | A_typed ty fs => Ht ty fs (fields fs)
    end.
End DocInd.

Definition okd (t : doc0) : Prop := doc_ok true t /\ plain t.
Lemma all_of_map2 {A} (P Q : A -> Prop) l : all_of (map P l) -> all_of (map Q l) -> Forall (fun x => P x /\ Q x) l.
Proof. intros H1 H2. apply all_of_map in H1. apply all_of_map in H2. rewrite Forall_forall in *. intros x Hx. split; [apply H1, Hx|apply H2, Hx]. Qed.
Lemma doc_ok_plain t : doc_ok false t -> okd t /\ read0 t = meaning0 t.
Proof.
  assert (F : forall fs, Forall (fun p => doc_ok false (snd p) -> okd (snd p) /\ read0 (snd p) = meaning0 (snd p)) fs -> all_of (map (fun p => 0 < len (fst p) <= 65535 /\ doc_ok false (snd p)) fs) ->
    (all_of (map (fun p : bytes * doc0 => 0 < len (fst p) <= 65535 /\ doc_ok true (snd p)) fs) /\ all_of (map (fun p : bytes * doc0 => plain (snd p)) fs)) /\ map (fun p : bytes * doc0 => (fst p, read0 (snd p))) fs = map (fun p => (fst p, meaning0 (snd p))) fs).
  { intros fs IH H. apply all_of_map in H. rewrite Forall_forall in IH, H. split; [split; apply all_of_map, Forall_forall; intros p Hp|].
    - destruct (H p Hp) as [H1 H2]. destruct (IH p Hp H2) as [[H3 _] _]. split; assumption.
    - destruct (H p Hp) as [H1 H2]. destruct (IH p Hp H2) as [[_ H3] _]. exact H3.
    - apply map_ext_in. intros p Hp. destruct (H p Hp) as [H1 H2]. destruct (IH p Hp H2) as [_ H3]. rewrite H3. reflexivity. }
  induction t as [b|b|s|fs IH| | |i|s|n fs IH|l IH|b z|s| |s|ty fs IH] using doc0_ind'; intros Hok; unfold okd in *; cbn [doc_ok plain read0 meaning0] in *; try tauto; try (exfalso; intuition discriminate).
  - destruct Hok as [-> | ->]; split; try split; try lia; try exact I; reflexivity.
  - destruct (F fs IH Hok) as [[H1 H2] H3]. rewrite H3. tauto.
  - destruct Hok as [Hn Hok]. destruct (F fs IH Hok) as [[H1 H2] H3]. rewrite H3. tauto.
  - destruct Hok as [Hl Hok]. apply all_of_map in Hok. rewrite Forall_forall in IH, Hok. split; [split; [split; [exact Hl|]|]; apply all_of_map, Forall_forall; intros x Hx; apply (IH x Hx (Hok x Hx))|].
    f_equal. apply map_ext_in. intros x Hx. apply (IH x Hx (Hok x Hx)).
  - destruct Hok as [Hn Hok]. destruct (F fs IH Hok) as [[H1 H2] H3]. rewrite H3. tauto.
Qed.

Lemma layout0_nonempty t : (0 < length (layout0 t))%nat.
Proof. destruct t; cbn; lia. Qed.

Definition doc_end (rest : bytes) (e : rend) (t : doc0) : Prop := rest <> [] \/ e_zero e = false \/ doc_ends_empty t = false.
Definition RTD (t : doc0) : Prop :=
  okd t -> forall fuel d rest e, (length (layout0 t) < fuel)%nat ->
  d_r d = contr (layout0 t ++ rest) e -> doc_end rest e t -> decodes (dec0 fuel) d rest e (read0 t).

Lemma doc_ends_last l x : doc_ends_empty (A_strict (l ++ [x])) = doc_ends_empty x.
Proof. cbn [doc_ends_empty]. rewrite map_app, rev_app_distr. reflexivity. Qed.

Lemma doc_arr_loop l : Forall RTD l -> Forall okd l ->
  forall fuel k d rest e, (length (concat (map layout0 l)) < fuel)%nat -> (length l <= k)%nat ->
  d_r d = contr (concat (map layout0 l) ++ rest) e -> doc_end rest e (A_strict l) ->
  exists d' vs hs, loop_n (dec0 fuel) k (len l) d = (d', Ok vs) /\ d_r d' = contr rest e /\
    d_heap d' = d_heap d ++ hs /\
    forall H, agree H (d_heap d') (length (d_heap d)) (length (d_heap d')) ->
      Forall2 (unfolds H) vs (map read0 l).
Proof.
  induction l as [|t l IH]; intros HRT Hok fuel k d rest e Hf Hk Hr Hs.
  - exists d, [], []. split; [destruct k; reflexivity|]. split; [exact Hr|]. split; [rewrite app_nil_r; reflexivity|].
    intros; constructor.
  - inversion HRT as [|? ? HRt HRl]; inversion Hok as [|? ? Hot Hol]; subst.
    destruct k as [|k]; [cbn [length] in Hk; lia|].
    cbn [map concat] in Hf, Hr. rewrite app_length in Hf. rewrite <- app_assoc in Hr.
    destruct (HRt Hot fuel d (concat (map layout0 l) ++ rest) e ltac:(lia) Hr) as (d1 & v & hs1 & E1 & R1 & H1 & U1).
    { destruct Hs as [Hs|[Hs|Hs]].
      - left. intros X. apply app_eq_nil in X. tauto.
      - right; left; exact Hs.
      - destruct l as [|t2 l].
        + right; right. cbn in Hs. exact Hs.
        + left. intros X. apply app_eq_nil in X. destruct X as [X _]. cbn [map concat] in X.
          apply app_eq_nil in X. destruct X as [X _].
          pose proof (layout0_nonempty t2) as Hn. rewrite X in Hn. cbn in Hn. lia. }
    destruct (IH HRl Hol fuel k d1 rest e ltac:(lia) ltac:(cbn [length] in Hk; lia) R1) as (d2 & vs & hs2 & E2 & R2 & H2 & U2).
    { destruct Hs as [Hs|[Hs|Hs]]; [left; exact Hs|right; left; exact Hs|].
      destruct l as [|t2 l]; [right; right; reflexivity|].
      right; right. destruct (exists_last (l := t2 :: l) ltac:(discriminate)) as (l' & x & El).
      rewrite El in *. rewrite doc_ends_last. change (t :: l' ++ [x]) with ((t :: l') ++ [x]) in Hs.
      rewrite doc_ends_last in Hs. exact Hs. }
    exists d2, (v :: vs), (hs1 ++ hs2). split.
    + cbn [loop_n]. destruct (len (t :: l) <=? 0) eqn:E0; [rewrite len_cons in E0; pose proof (len_nonneg l); lia|].
      erewrite dbind_ok by exact E1.
      replace (len (t :: l) - 1) with (len l) by (rewrite len_cons; lia).
      erewrite dbind_ok by exact E2. reflexivity.
    + split; [exact R2|]. split; [rewrite H2, H1, app_assoc; reflexivity|].
      intros H HA. cbn [map]. constructor.
      * apply U1. intros i Hi. rewrite HA; [|rewrite H2, app_length; lia].
        rewrite H2. rewrite nth_error_app1 by lia. reflexivity.
      * apply U2. intros i Hi. apply HA. rewrite H1, app_length in Hi. lia.
Qed.

Definition fieldd_ok (p : bytes * doc0) : Prop := 0 < len (fst p) <= 65535 /\ okd (snd p).
Definition layout_fields (fs : list (bytes * doc0)) : bytes := concat (map (fun p => wire_utf8 (fst p) ++ layout0 (snd p)) fs).
Definition fmean (fs : list (bytes * doc0)) := map (fun p => (fst p, read0 (snd p))) fs.
Definition putall (acc : list (bytes * pval)) (fs : list (bytes * pval)) := fold_left (fun acc p => put (fst p) (snd p) acc) fs acc.
Definition frel (H : list omap) (m : omap) (ps : list (bytes * pval)) := Forall2 (fun a b => fst a = fst b /\ unfolds H (snd a) (snd b)) m ps.

Lemma map_set_rel H k v p : unfolds H v p -> forall m ps, frel H m ps -> frel H (map_set k v m) (put k p ps).
Proof.
  intros U m ps HR. induction HR as [|[k1 v1] [k2 p2] m ps [E U1] HR IH]; cbn [map_set put fst snd] in *.
  - repeat constructor. exact U.
  - subst k2. destruct (bytes_eqb k k1); constructor; try assumption; split; [reflexivity|assumption|reflexivity|assumption].
Qed.

(** The key/value loop of an object whose map sits at location loc. *)
Lemma doc_obj_loop fs : Forall (fun p => RTD (snd p)) fs -> Forall fieldd_ok fs ->
  forall fuel k d rest e h m hs,
  (length (layout_fields fs) < fuel)%nat -> (length fs < k)%nat ->
  d_r d = contr (layout_fields fs ++ [0; 0; 9] ++ rest) e ->
  d_heap d = h ++ m :: hs ->
  exists d' m' hs', obj_loop (dec0 fuel) k (length h) d = (d', Ok tt) /\ d_r d' = contr rest e /\
    d_heap d' = h ++ m' :: hs ++ hs' /\
    forall H ps, agree H (d_heap d') (length h + 1 + length hs) (length (d_heap d')) ->
      frel H m ps -> frel H m' (putall ps (fmean fs)).
Proof.
  induction fs as [|[key t] fs IH]; intros HRT Hok fuel k d rest e h m hs Hf Hk Hr Hh.
  - destruct k as [|k]; [cbn [length] in Hk; lia|].
    cbn [layout_fields map concat app] in Hr.
    exists (set_r (contr rest e) d), m, [].
    split.
    + cbn [obj_loop]. change (0 :: 0 :: 9 :: rest) with (wire_utf8 [] ++ [9] ++ rest) in Hr.
      erewrite dbind_ok by (eapply decode_string0_contr; [exact Hr|rewrite len_nil; lia|right; left; discriminate]).
      cbn iota. unfold next_byte_must_be.
      erewrite dbind_ok by (eapply read_byte_contr; reflexivity). reflexivity.
    + split; [reflexivity|]. split; [rewrite set_r_heap, Hh, !app_nil_r; reflexivity|].
      intros H ps _ HR. exact HR.
  - inversion HRT as [|? ? HRt HRl]; inversion Hok as [|? ? [Hkl Hot] Hol]; subst. cbn [fst snd] in *.
    destruct k as [|k]; [cbn [length] in Hk; lia|].
    unfold layout_fields in Hf, Hr. cbn [map concat fst snd] in Hf, Hr.
    fold (layout_fields fs) in Hf, Hr. rewrite <- !app_assoc in Hr. rewrite !app_length in Hf.
    assert (Hkne : key <> []) by (intros ->; unfold len in Hkl; cbn [length] in Hkl; lia).
    set (d0 := set_r (contr (layout0 t ++ layout_fields fs ++ [0; 0; 9] ++ rest) e) d).
    assert (Es : decode_string0 d = (d0, Ok key)).
    { unfold d0. apply decode_string0_contr; [exact Hr|lia|left; exact Hkne]. }
    destruct (HRt Hot fuel d0 (layout_fields fs ++ [0; 0; 9] ++ rest) e ltac:(lia) eq_refl) as (d1 & v & hs1 & E1 & R1 & H1 & U1).
    { left. intros X. apply app_eq_nil in X. destruct X; discriminate. }
    change (d_heap d0) with (d_heap d) in H1, U1. rewrite Hh in H1.
    set (d2 := set_heap (upd_nth (length h) (map_set key v) (d_heap d1)) d1).
    assert (Hd2 : d_heap d2 = h ++ (map_set key v m) :: (hs ++ hs1)).
    { unfold d2. cbn [d_heap set_heap]. rewrite H1, <- app_assoc, <- app_comm_cons, upd_nth_app. reflexivity. }
    destruct (IH HRl Hol fuel k d2 rest e h (map_set key v m) (hs ++ hs1)) as (d3 & m' & hs' & E3 & R3 & H3 & U3);
      [lia|cbn [length] in Hk; lia|exact R1|exact Hd2|].
    exists d3, m', (hs1 ++ hs'). split.
    + cbn [obj_loop]. erewrite dbind_ok by exact Es.
      destruct key as [|k0 key]; [congruence|].
      erewrite dbind_ok by exact E1. erewrite dbind_ok; [|reflexivity]. exact E3.
    + split; [exact R3|]. split.
      * rewrite H3, <- !app_assoc. reflexivity.
      * intros H ps HA HR. cbn [fmean map fst snd putall fold_left]. apply U3.
        -- intros i Hi. apply HA. rewrite app_length in Hi. lia.
        -- apply map_set_rel; [|exact HR]. apply U1. intros i Hi.
           rewrite Hh, app_length in Hi. cbn [length] in Hi.
           rewrite H1, !app_length in Hi. cbn [length] in Hi. rewrite ?app_length in Hi.
           rewrite HA.
           ++ rewrite H3, H1. rewrite <- (app_assoc h), <- app_comm_cons.
              apply nth_error_mid. rewrite app_length. lia.
           ++ rewrite H3, !app_length. cbn [length]. rewrite !app_length. lia.
Qed.

Lemma layout_fields_length fs : (length fs <= length (layout_fields fs))%nat.
Proof.
  induction fs as [|[k t] fs IH]; cbn [length]; [lia|].
  unfold layout_fields. cbn [map concat fst snd]. fold (layout_fields fs).
  rewrite !app_length. unfold wire_utf8. rewrite app_length. cbn [be16 length]. lia.
Qed.
Lemma concat_layout_length l : (length l <= length (concat (map layout0 l)))%nat.
Proof.
  induction l as [|t l IH]; cbn [map concat length]; [lia|].
  rewrite app_length. pose proof (layout0_nonempty t). lia.
Qed.

Lemma doc_object fs : Forall (fun p => RTD (snd p)) fs -> Forall fieldd_ok fs ->
  forall fuel k d rest e, (length (layout_fields fs) < fuel)%nat -> (length fs < k)%nat ->
  d_r d = contr (layout_fields fs ++ [0; 0; 9] ++ rest) e ->
  exists d' m hs', decode_object0 (dec0 fuel) k d = (d', Ok (length (d_heap d))) /\ d_r d' = contr rest e /\
    d_heap d' = d_heap d ++ m :: hs' /\
    forall H, agree H (d_heap d') (length (d_heap d)) (length (d_heap d')) ->
      nth_error H (length (d_heap d)) = Some m /\ frel H m (members (fmean fs)).
Proof.
  intros HRT Hok fuel k d rest e Hf Hk Hr. unfold decode_object0.
  erewrite dbind_ok by reflexivity. erewrite dbind_ok by reflexivity.
  set (d1 := set_ref0 _ _).
  destruct (doc_obj_loop fs HRT Hok fuel k d1 rest e (d_heap d) [] [] Hf Hk Hr) as (d2 & m & hs' & E & R & Hh & U).
  - reflexivity.
  - exists d2, m, hs'. split; [|split; [exact R|split; [exact Hh|]]].
    + erewrite dbind_ok by exact E. reflexivity.
    + intros H HA. split.
      * rewrite HA by (rewrite Hh, app_length; cbn [length]; lia). rewrite Hh. apply nth_error_len.
      * apply U; [|constructor]. intros i Hi. apply HA. cbn [length] in Hi. lia.
Qed.

Lemma fieldd_of fs : Forall (fun p : bytes * doc0 => (0 < len (fst p) <= 65535 /\ doc_ok true (snd p)) /\ plain (snd p)) fs -> Forall fieldd_ok fs.
Proof. rewrite !Forall_forall. intros H p Hp. destruct (H p Hp) as [[H1 H2] H3]. split; [exact H1|split; assumption]. Qed.

Ltac step0 Hr := cbn [dec0]; erewrite dbind_ok by (eapply read_byte_contr; exact Hr); cbn [Z.eqb orb Pos.eqb].

Theorem dec0_doc t : RTD t.
Proof.
  induction t as [b|b|s|fs IH| | |i|s|n fs IH|l IH|b z|s| |s|ty fs IH] using doc0_ind';
    intros [Hok Hpl] [|fuel] d rest e Hf Hr Hs; cbn [doc_ok plain] in Hok, Hpl; try (exfalso; lia);
    cbn [layout0 read0 meaning0] in *; change (2 ^ 64) with 18446744073709551616 in *; change (2 ^ 32) with 4294967296 in *; change (2 ^ 16) with 65536 in *.
  - eapply decodes_leaf; [apply dec0_number; [exact Hok|exact Hr]|reflexivity|reflexivity|constructor].
  - eapply decodes_leaf.
    + step0 Hr. erewrite dbind_ok by (eapply read_byte_contr; reflexivity). reflexivity.
    + reflexivity.
    + reflexivity.
    + intros H. constructor.
  - assert (Hs' : s <> [] \/ rest <> [] \/ e_zero e = false).
    { destruct s; [|left; discriminate]. destruct Hs as [H|[H|H]]; [tauto|tauto|cbn in H; discriminate]. }
    eapply decodes_leaf.
    + step0 Hr. erewrite dbind_ok by (eapply decode_string0_contr; [reflexivity|lia|exact Hs']). reflexivity.
    + reflexivity.
    + reflexivity.
    + constructor.
  - apply (all_of_map2 _ _ _ Hok) in Hpl. cbn [length app] in Hf, Hr. rewrite app_length in Hf. fold (layout_fields fs) in Hf, Hr.
    rewrite <- app_assoc in Hr. cbn [length] in Hf. pose proof (layout_fields_length fs) as Hwl.
    destruct (doc_object fs IH (fieldd_of fs Hpl) fuel fuel (set_r (contr (layout_fields fs ++ [0; 0; 9] ++ rest) e) d) rest e)
      as (d' & m & hs & E & R & Hh & U); [lia|lia|reflexivity|].
    exists d', (VObj (length (d_heap d))), (m :: hs). split; [|split; [exact R|split; [exact Hh|]]].
    + step0 Hr. erewrite dbind_ok by exact E. reflexivity.
    + intros H HA. destruct (U H HA) as [Hn Hu]. econstructor; [exact Hn|exact Hu|apply Permutation_refl].
  - eapply decodes_leaf; [step0 Hr; reflexivity|reflexivity|reflexivity|constructor].
  - eapply decodes_leaf; [step0 Hr; reflexivity|reflexivity|reflexivity|constructor].
  - destruct Hok as [Hn Hok]. apply (all_of_map2 _ _ _ Hok) in Hpl. cbn [length app] in Hf, Hr. rewrite !app_length in Hf. fold (layout_fields fs) in Hf, Hr.
    rewrite <- !app_assoc in Hr. cbn [length be32] in Hf. pose proof (layout_fields_length fs) as Hwl.
    destruct (doc_object fs IH (fieldd_of fs Hpl) fuel fuel (set_r (contr (layout_fields fs ++ [0; 0; 9] ++ rest) e) d) rest e)
      as (d' & m & hs & E & R & Hh & U); [lia|lia|reflexivity|].
    exists d', (VObj (length (d_heap d))), (m :: hs). split; [|split; [exact R|split; [exact Hh|]]].
    + step0 Hr. unfold decode_ecma0.
      erewrite dbind_ok by (change 4 with (len (be32 n)); eapply read_be_contr; [reflexivity|reflexivity]).
      rewrite ?set_r_set_r. erewrite dbind_ok by exact E. reflexivity.
    + intros H HA. destruct (U H HA) as [Hn' Hu]. econstructor; [exact Hn'|exact Hu|apply Permutation_refl].
  - destruct Hok as [Hlen Hall]. apply (all_of_map2 _ _ _ Hall) in Hpl.
    cbn [length app] in Hf, Hr. rewrite app_length in Hf. cbn [be32 length] in Hf. rewrite <- app_assoc in Hr.
    set (d1 := set_ref0 (d_ref0 d ++ [VArr []]) (set_r (contr (concat (map layout0 l) ++ rest) e) d)).
    pose proof (concat_layout_length l) as Hcl.
    destruct (doc_arr_loop l IH Hpl fuel fuel d1 rest e) as (d' & vs & hs & E & R & Hh & U); [lia|lia|reflexivity|exact Hs|].
    exists d', (VArr vs), hs. split; [|split; [exact R|split; [exact Hh|]]].
    + step0 Hr. unfold decode_strict0.
      erewrite dbind_ok by (change 4 with (len (be32 (len l))); eapply read_be_contr; [reflexivity|reflexivity]).
      rewrite be_val_be32, Z.mod_small by (pose proof (len_nonneg l); lia).
      erewrite dbind_ok by reflexivity. erewrite dbind_ok by exact E. reflexivity.
    + intros H HA. constructor. apply U. exact HA.
  - destruct Hok as [Hb Hz]. cbn [app] in Hr. rewrite <- app_assoc in Hr. eapply decodes_leaf.
    + step0 Hr. unfold decode_date0.
      erewrite dbind_ok by (change 8 with (len (be64 b)); eapply read_be_contr; [reflexivity|reflexivity]).
      erewrite dbind_ok by (change 2 with (len (be16 z)); eapply read_bytes_contr; [reflexivity|reflexivity]).
      rewrite be_val_be64, Z.mod_small by exact Hb. reflexivity.
    + reflexivity.
    + reflexivity.
    + constructor.
  - assert (Hs' : s <> [] \/ rest <> [] \/ e_zero e = false).
    { destruct s; [|left; discriminate]. destruct Hs as [H|[H|H]]; [tauto|tauto|cbn in H; discriminate]. }
    eapply decodes_leaf.
    + step0 Hr. erewrite dbind_ok by (eapply decode_longstring0_contr; [reflexivity|lia|exact Hs']). reflexivity.
    + reflexivity.
    + reflexivity.
    + constructor.
  - eapply decodes_leaf; [step0 Hr; reflexivity|reflexivity|reflexivity|constructor].
  - assert (Hs' : s <> [] \/ rest <> [] \/ e_zero e = false).
    { destruct s; [|left; discriminate]. destruct Hs as [H|[H|H]]; [tauto|tauto|cbn in H; discriminate]. }
    eapply decodes_leaf.
    + step0 Hr. erewrite dbind_ok by (eapply decode_longstring0_contr; [reflexivity|lia|exact Hs']). reflexivity.
    + reflexivity.
    + reflexivity.
    + constructor.
  - destruct Hok as (Htl & Hok). apply (all_of_map2 _ _ _ Hok) in Hpl.
    cbn [length app] in Hf, Hr. rewrite !app_length in Hf. fold (layout_fields fs) in Hf, Hr.
    rewrite <- !app_assoc in Hr. cbn [length] in Hf. pose proof (layout_fields_length fs) as Hwl.
    set (d1 := set_r (contr (layout_fields fs ++ [0; 0; 9] ++ rest) e)
                 (set_ref0 (d_ref0 d ++ [VTyped [] None])
                    (set_r (contr (wire_utf8 ty ++ layout_fields fs ++ [0; 0; 9] ++ rest) e) d))).
    destruct (doc_object fs IH (fieldd_of fs Hpl) fuel fuel d1 rest e) as (d' & m & hs & E & R & Hh & U); [lia|lia|reflexivity|].
    exists d', (VTyped ty (Some (length (d_heap d)))), (m :: hs). split; [|split; [exact R|split; [exact Hh|]]].
    + step0 Hr. unfold decode_typed0. erewrite dbind_ok by reflexivity.
      erewrite dbind_ok by (eapply decode_string0_contr; [reflexivity|exact Htl|right; left; intros X; apply app_eq_nil in X; destruct X; discriminate]).
      erewrite dbind_ok by exact E. reflexivity.
    + intros H HA. destruct (U H HA) as [Hn Hu]. econstructor; [exact Hn|exact Hu|apply Permutation_refl].
Qed.
