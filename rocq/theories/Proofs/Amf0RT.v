(** AMF0: decoding the wire format. *)
From Coq Require Import Permutation.
From Verif Require Import Base.Go Base.GoFacts Base.IO Base.Float64 Proofs.IOFacts Proofs.Float64
  Model.AmfTypes Model.Amf3 Model.Amf0 Spec.Amf Proofs.AmfFacts Proofs.Amf0Enc.

Lemma dbind_ok {A B} (m : Dm A) (k : A -> Dm B) d d' a :
  m d = (d', Ok a) -> dbind m k d = k a d'.
Proof. intros H. unfold dbind. rewrite H. reflexivity. Qed.

Lemma wire0_nonempty t : ok0 t -> (0 < length (wire0 t))%nat.
Proof. destruct t; cbn; intros; try contradiction; try lia. destruct (len s <=? 65535); cbn; lia. Qed.

Lemma decode_string0_contr d s rest e :
  d_r d = contr (wire_utf8 s ++ rest) e -> len s <= 65535 -> s <> [] \/ rest <> [] \/ e_zero e = false ->
  decode_string0 d = (set_r (contr rest e) d, Ok s).
Proof.
  intros Hr Hl Hs. unfold decode_string0. unfold wire_utf8 in Hr. rewrite <- app_assoc in Hr.
  erewrite dbind_ok by (change 2 with (len (be16 (len s))); apply read_be_contr; [exact Hr|reflexivity]).
  rewrite be_val_be16, Z.mod_small by (pose proof (len_nonneg s); lia).
  destruct s as [|x s].
  - change (@len Z []) with 0. erewrite read_bytes_contr0; [reflexivity|reflexivity|].
    destruct Hs as [H|[H|H]]; [congruence|left; exact H|right; exact H].
  - erewrite read_bytes_contr; [reflexivity|reflexivity|]. rewrite len_cons. pose proof (len_nonneg s). lia.
Qed.

Lemma decode_longstring0_contr d s rest e :
  d_r d = contr (wire_utf8_long s ++ rest) e -> len s < 4294967296 -> s <> [] \/ rest <> [] \/ e_zero e = false ->
  decode_longstring0 d = (set_r (contr rest e) d, Ok s).
Proof.
  intros Hr Hl Hs. unfold decode_longstring0. unfold wire_utf8_long in Hr. rewrite <- app_assoc in Hr.
  erewrite dbind_ok by (change 4 with (len (be32 (len s))); apply read_be_contr; [exact Hr|reflexivity]).
  rewrite be_val_be32, Z.mod_small by (pose proof (len_nonneg s); lia).
  destruct s as [|x s].
  - change (@len Z []) with 0. erewrite read_bytes_contr0; [reflexivity|reflexivity|].
    destruct Hs as [H|[H|H]]; [congruence|left; exact H|right; exact H].
  - erewrite read_bytes_contr; [reflexivity|reflexivity|]. rewrite len_cons. pose proof (len_nonneg s). lia.
Qed.

(** Result of decoding one value: reader advanced, heap extended, value unfolds locally. *)
Definition decodes (m : Dm value) (d : dstate) (rest : bytes) (e : rend) (p : pval) : Prop :=
  exists d' v hs, m d = (d', Ok v) /\ d_r d' = contr rest e /\ d_heap d' = d_heap d ++ hs /\
    local_unfolds (d_heap d') (length (d_heap d)) (length (d_heap d')) v p.

Definition safe_end (rest : bytes) (e : rend) (t : tree) : Prop :=
  rest <> [] \/ e_zero e = false \/ ends_empty t = false.

Definition RT0 (t : tree) : Prop :=
  ok0 t -> forall fuel d rest e, (length (wire0 t) < fuel)%nat ->
  d_r d = contr (wire0 t ++ rest) e -> safe_end rest e t ->
  decodes (dec0 fuel) d rest e (img0 t).

Lemma ends_empty_last l x : ends_empty (TArr (l ++ [x])) = ends_empty x.
Proof. cbn [ends_empty]. rewrite map_app, rev_app_distr. reflexivity. Qed.

Lemma arr_loop0 l : Forall RT0 l -> Forall ok0 l ->
  forall fuel k d rest e, (length (concat (map wire0 l)) < fuel)%nat -> (length l <= k)%nat ->
  d_r d = contr (concat (map wire0 l) ++ rest) e ->
  rest <> [] \/ e_zero e = false \/ ends_empty (TArr l) = false ->
  exists d' vs hs, loop_n (dec0 fuel) k (len l) d = (d', Ok vs) /\ d_r d' = contr rest e /\
    d_heap d' = d_heap d ++ hs /\
    forall H, agree H (d_heap d') (length (d_heap d)) (length (d_heap d')) ->
      Forall2 (unfolds H) vs (map img0 l).
Proof.
  induction l as [|t l IH]; intros HRT Hok fuel k d rest e Hf Hk Hr Hs.
  - exists d, [], []. split; [destruct k; reflexivity|]. split; [exact Hr|]. split; [rewrite app_nil_r; reflexivity|].
    intros; constructor.
  - inversion HRT as [|? ? HRt HRl]; inversion Hok as [|? ? Hot Hol]; subst.
    destruct k as [|k]; [cbn [length] in Hk; lia|].
    cbn [map concat] in Hf, Hr. rewrite app_length in Hf. rewrite <- app_assoc in Hr.
    destruct (HRt Hot fuel d (concat (map wire0 l) ++ rest) e ltac:(lia) Hr) as (d1 & v & hs1 & E1 & R1 & H1 & U1).
    { destruct Hs as [Hs|[Hs|Hs]].
      - left. intros X. apply app_eq_nil in X. tauto.
      - right; left; exact Hs.
      - destruct l as [|t2 l].
        + right; right. cbn in Hs. exact Hs.
        + left. intros X. apply app_eq_nil in X. destruct X as [X _]. cbn [map concat] in X.
          apply app_eq_nil in X. destruct X as [X _]. inversion Hol as [|? ? Ho2 _]; subst.
          pose proof (wire0_nonempty t2 Ho2) as Hn. rewrite X in Hn. cbn in Hn. lia. }
    destruct (IH HRl Hol fuel k d1 rest e ltac:(lia) ltac:(cbn [length] in Hk; lia) R1) as (d2 & vs & hs2 & E2 & R2 & H2 & U2).
    { destruct Hs as [Hs|[Hs|Hs]]; [left; exact Hs|right; left; exact Hs|].
      destruct l as [|t2 l]; [right; right; reflexivity|].
      right; right. destruct (exists_last (l := t2 :: l) ltac:(discriminate)) as (l' & x & El).
      rewrite El in *. rewrite ends_empty_last. change (t :: l' ++ [x]) with ((t :: l') ++ [x]) in Hs.
      rewrite ends_empty_last in Hs. exact Hs. }
    exists d2, (v :: vs), (hs1 ++ hs2). split.
    + cbn [loop_n]. destruct (len (t :: l) <=? 0) eqn:E0; [rewrite len_cons in E0; pose proof (len_nonneg l); lia|].
      erewrite dbind_ok by exact E1.
      replace (len (t :: l) - 1) with (len l) by (rewrite len_cons; lia).
      erewrite dbind_ok by exact E2. reflexivity.
    + split; [exact R2|]. split; [rewrite H2, H1, app_assoc; reflexivity|].
      intros H HA. cbn [map]. constructor.
      * apply U1. intros i Hi. rewrite HA; [|rewrite H2, app_length; lia].
        rewrite H2. rewrite nth_error_app1 by lia. reflexivity.
      * apply U2. intros i Hi. apply HA. rewrite H1, app_length in Hi. lia.
Qed.

Lemma nth_error_mid {A} (h : list A) x y l1 l2 i :
  (length h < i < length h + 1 + length l1)%nat ->
  nth_error (h ++ x :: l1 ++ l2) i = nth_error (h ++ y :: l1) i.
Proof.
  intros Hi. rewrite !nth_error_app2 by lia.
  destruct (i - length h)%nat as [|j] eqn:E; [lia|]. cbn [nth_error].
  apply nth_error_app1. lia.
Qed.

Definition field_ok (p : bytes * tree) : Prop :=
  (is_bytes (fst p) /\ 0 < len (fst p) <= 65535) /\ ok0 (snd p).

Definition wire_fields (fs : list (bytes * tree)) : bytes :=
  concat (map (fun p => wire_utf8 (fst p) ++ wire0 (snd p)) fs).

(** The key/value loop of an object whose map sits at location loc. *)
Lemma obj_loop0 fs : Forall (fun p => RT0 (snd p)) fs -> Forall field_ok fs ->
  forall fuel k d rest e h m hs,
  (length (wire_fields fs) < fuel)%nat -> (length fs < k)%nat ->
  d_r d = contr (wire_fields fs ++ [0; 0; 9] ++ rest) e ->
  d_heap d = h ++ m :: hs ->
  NoDup (map fst fs) -> (forall key, In key (map fst fs) -> ~ In key (map fst m)) ->
  exists d' m' hs', obj_loop (dec0 fuel) k (length h) d = (d', Ok tt) /\ d_r d' = contr rest e /\
    d_heap d' = h ++ (m ++ m') :: hs ++ hs' /\
    forall H, agree H (d_heap d') (length h + 1 + length hs) (length (d_heap d')) ->
      Forall2 (fun a b => fst a = fst b /\ unfolds H (snd a) (snd b)) m'
              (map (fun p => (fst p, img0 (snd p))) fs).
Proof.
  induction fs as [|[key t] fs IH]; intros HRT Hok fuel k d rest e h m hs Hf Hk Hr Hh Hnd Hfr.
  - destruct k as [|k]; [cbn [length] in Hk; lia|].
    cbn [wire_fields map concat app] in Hr.
    exists (set_r (contr rest e) d), [], [].
    split.
    + cbn [obj_loop]. change (0 :: 0 :: 9 :: rest) with (wire_utf8 [] ++ [9] ++ rest) in Hr.
      erewrite dbind_ok by (eapply decode_string0_contr; [exact Hr|rewrite len_nil; lia|right; left; discriminate]).
      cbn iota. unfold next_byte_must_be.
      erewrite dbind_ok by (eapply read_byte_contr; reflexivity). reflexivity.
    + split; [reflexivity|]. split; [rewrite set_r_heap, Hh, !app_nil_r; reflexivity|].
      intros; constructor.
  - inversion HRT as [|? ? HRt HRl]; inversion Hok as [|? ? [[Hkb Hkl] Hot] Hol]; subst. cbn [fst snd] in *.
    destruct k as [|k]; [cbn [length] in Hk; lia|].
    unfold wire_fields in Hf, Hr. cbn [map concat fst snd] in Hf, Hr.
    fold (wire_fields fs) in Hf, Hr. rewrite <- !app_assoc in Hr. rewrite !app_length in Hf.
    assert (Hkne : key <> []) by (intros ->; unfold len in Hkl; cbn [length] in Hkl; lia).
    set (d0 := set_r (contr (wire0 t ++ wire_fields fs ++ [0; 0; 9] ++ rest) e) d).
    assert (Es : decode_string0 d = (d0, Ok key)).
    { unfold d0. apply decode_string0_contr; [exact Hr|lia|left; exact Hkne]. }
    destruct (HRt Hot fuel d0 (wire_fields fs ++ [0; 0; 9] ++ rest) e ltac:(lia) eq_refl) as (d1 & v & hs1 & E1 & R1 & H1 & U1).
    { left. intros X. apply app_eq_nil in X. destruct X; discriminate. }
    change (d_heap d0) with (d_heap d) in H1, U1. rewrite Hh in H1.
    set (d2 := set_heap (upd_nth (length h) (map_set key v) (d_heap d1)) d1).
    assert (Hd2 : d_heap d2 = h ++ (m ++ [(key, v)]) :: (hs ++ hs1)).
    { unfold d2. cbn [d_heap set_heap]. rewrite H1, <- app_assoc, <- app_comm_cons, upd_nth_app.
      rewrite map_set_fresh by (apply Hfr; left; reflexivity). reflexivity. }
    cbn [map fst] in Hnd. apply NoDup_cons_iff in Hnd. destruct Hnd as [Hni Hnd].
    destruct (IH HRl Hol fuel k d2 rest e h (m ++ [(key, v)]) (hs ++ hs1)) as (d3 & m' & hs' & E3 & R3 & H3 & U3);
      [lia|cbn [length] in Hk; lia|exact R1|exact Hd2|exact Hnd| |].
    { intros k0 Hk0. rewrite map_app, in_app_iff. cbn [map fst In]. intros [Hin|[<-|[]]].
      - eapply Hfr; [right; exact Hk0|exact Hin].
      - contradiction. }
    exists d3, ((key, v) :: m'), (hs1 ++ hs'). split.
    + cbn [obj_loop]. erewrite dbind_ok by exact Es.
      destruct key as [|k0 key]; [congruence|].
      erewrite dbind_ok by exact E1. erewrite dbind_ok; [|reflexivity]. exact E3.
    + split; [exact R3|]. split.
      * rewrite H3, <- !app_assoc. reflexivity.
      * intros H HA. cbn [map fst snd]. constructor.
        -- cbn [fst snd]. split; [reflexivity|]. apply U1. intros i Hi.
           rewrite Hh, app_length in Hi. cbn [length] in Hi.
           rewrite H1, !app_length in Hi. cbn [length] in Hi. rewrite ?app_length in Hi.
           rewrite HA.
           ++ rewrite H3, H1. rewrite <- (app_assoc h), <- app_comm_cons.
              apply nth_error_mid. rewrite app_length. lia.
           ++ rewrite H3, !app_length. cbn [length]. rewrite !app_length. lia.
        -- apply U3. intros i Hi. apply HA. rewrite app_length in Hi. lia.
Qed.

Lemma wire_fields_length fs : (length fs <= length (wire_fields fs))%nat.
Proof.
  induction fs as [|[k t] fs IH]; cbn [length]; [lia|].
  unfold wire_fields. cbn [map concat fst snd]. fold (wire_fields fs).
  rewrite !app_length. unfold wire_utf8. rewrite app_length. cbn [be16 length]. lia.
Qed.
Lemma concat_wire_length l : Forall ok0 l -> (length l <= length (concat (map wire0 l)))%nat.
Proof.
  induction 1 as [|t l Ht _ IH]; cbn [map concat length]; [lia|].
  rewrite app_length. pose proof (wire0_nonempty t Ht). lia.
Qed.

(** decodeObject on a complete field list. *)
Lemma decode_object0_contr fs : Forall (fun p => RT0 (snd p)) fs -> Forall field_ok fs -> NoDup (map fst fs) ->
  forall fuel k d rest e, (length (wire_fields fs) < fuel)%nat -> (length fs < k)%nat ->
  d_r d = contr (wire_fields fs ++ [0; 0; 9] ++ rest) e ->
  exists d' m hs', decode_object0 (dec0 fuel) k d = (d', Ok (length (d_heap d))) /\ d_r d' = contr rest e /\
    d_heap d' = d_heap d ++ m :: hs' /\
    forall H, agree H (d_heap d') (length (d_heap d)) (length (d_heap d')) ->
      nth_error H (length (d_heap d)) = Some m /\
      Forall2 (fun a b => fst a = fst b /\ unfolds H (snd a) (snd b)) m
              (map (fun p => (fst p, img0 (snd p))) fs).
Proof.
  intros HRT Hok Hnd fuel k d rest e Hf Hk Hr. unfold decode_object0.
  erewrite dbind_ok by reflexivity. erewrite dbind_ok by reflexivity.
  set (d1 := set_ref0 _ _).
  destruct (obj_loop0 fs HRT Hok fuel k d1 rest e (d_heap d) [] [] Hf Hk Hr) as (d2 & m & hs' & E & R & Hh & U).
  - reflexivity.
  - exact Hnd.
  - intros; cbn; tauto.
  - exists d2, m, hs'. split; [|split; [exact R|split; [exact Hh|]]].
    + erewrite dbind_ok by exact E. reflexivity.
    + intros H HA. split.
      * rewrite HA by (rewrite Hh, app_length; cbn [length]; lia). rewrite Hh. apply nth_error_len.
      * apply U. intros i Hi. apply HA. cbn [length] in Hi. lia.
Qed.

Lemma f64_of_Z_range z : 0 <= f64_of_Z z < 18446744073709551616.
Proof. unfold f64_of_Z. apply f64_round_range; lia. Qed.

Lemma dec0_number d bits rest e fuel : 0 <= bits < 18446744073709551616 ->
  d_r d = contr (0 :: be64 bits ++ rest) e ->
  dec0 (S fuel) d = (set_r (contr rest e) d, Ok (VNum bits)).
Proof.
  intros Hb Hr. cbn [dec0].
  erewrite dbind_ok by (eapply read_byte_contr; exact Hr). cbn [Z.eqb].
  erewrite dbind_ok by (change 8 with (len (be64 bits)); eapply read_be_contr; [reflexivity|reflexivity]).
  rewrite be_val_be64, Z.mod_small by exact Hb. reflexivity.
Qed.

Lemma decodes_leaf m d d' v p rest e : m d = (d', Ok v) -> d_r d' = contr rest e -> d_heap d' = d_heap d ->
  (forall H, unfolds H v p) -> decodes m d rest e p.
Proof.
  intros Hm Hr Hh Hu. exists d', v, []. split; [exact Hm|]. split; [exact Hr|].
  split; [rewrite app_nil_r; exact Hh|]. intros H _. apply Hu.
Qed.

Lemma bytes_loop0 s : forall fuel k d rest e, (0 < fuel)%nat -> (length s <= k)%nat ->
  d_r d = contr (concat (map (fun b => 0 :: be64 (f64_of_Z b)) s) ++ rest) e ->
  exists d', loop_n (dec0 fuel) k (len s) d = (d', Ok (map (fun b => VNum (f64_of_Z b)) s)) /\
    d_r d' = contr rest e /\ d_heap d' = d_heap d.
Proof.
  induction s as [|b s IH]; intros fuel k d rest e Hf Hk Hr.
  - exists d. split; [destruct k; reflexivity|]. split; [exact Hr|reflexivity].
  - destruct k as [|k]; [cbn [length] in Hk; lia|]. destruct fuel as [|fuel]; [lia|].
    cbn [map concat] in Hr. cbn [app] in Hr. rewrite <- app_assoc in Hr.
    pose proof (dec0_number d (f64_of_Z b) _ e fuel (f64_of_Z_range b) Hr) as E1.
    destruct (IH (S fuel) k (set_r (contr (concat (map (fun b => 0 :: be64 (f64_of_Z b)) s) ++ rest) e) d) rest e)
      as (d' & E2 & R2 & H2); [lia|cbn [length] in Hk; lia|reflexivity|].
    exists d'. split; [|split; [exact R2|exact H2]].
    cbn [loop_n]. destruct (len (b :: s) <=? 0) eqn:E0; [rewrite len_cons in E0; pose proof (len_nonneg s); lia|].
    erewrite dbind_ok by exact E1.
    replace (len (b :: s) - 1) with (len s) by (rewrite len_cons; lia).
    erewrite dbind_ok by exact E2. reflexivity.
Qed.

Theorem dec0_wire t : RT0 t.
Proof.
  induction t as [|b|b|w z|w z|s|s|s|l IH|fs IH|ty fs IH|] using tree_ind';
    intros Hok [|fuel] d rest e Hf Hr Hs; cbn [ok0] in Hok; try contradiction; try (exfalso; lia);
    cbn [wire0 img0] in *.
  - (* nil *)
    eapply decodes_leaf.
    + cbn [dec0]. erewrite dbind_ok by (eapply read_byte_contr; exact Hr). cbn [Z.eqb orb Pos.eqb]. reflexivity.
    + reflexivity.
    + reflexivity.
    + constructor.
  - (* bool *)
    eapply decodes_leaf.
    + cbn [dec0]. erewrite dbind_ok by (eapply read_byte_contr; exact Hr). cbn [Z.eqb orb Pos.eqb].
      erewrite dbind_ok by (eapply read_byte_contr; reflexivity). reflexivity.
    + reflexivity.
    + reflexivity.
    + intros H. destruct b; constructor.
  - eapply decodes_leaf; [apply dec0_number; [exact Hok|exact Hr]|reflexivity|reflexivity|constructor].
  - eapply decodes_leaf; [apply dec0_number; [apply f64_of_Z_range|exact Hr]|reflexivity|reflexivity|constructor].
  - eapply decodes_leaf; [apply dec0_number; [apply f64_of_Z_range|exact Hr]|reflexivity|reflexivity|constructor].
  - (* string *)
    assert (Hs' : s <> [] \/ rest <> [] \/ e_zero e = false).
    { destruct s; [|left; discriminate]. destruct Hs as [H|[H|H]]; [tauto|tauto|cbn in H; discriminate]. }
    destruct Hok as [_ Hlen]. destruct (len s <=? 65535) eqn:E.
    + eapply decodes_leaf.
      * cbn [dec0]. erewrite dbind_ok by (eapply read_byte_contr; exact Hr). cbn [Z.eqb orb Pos.eqb].
        erewrite dbind_ok by (eapply decode_string0_contr; [reflexivity|lia|exact Hs']). reflexivity.
      * reflexivity.
      * reflexivity.
      * constructor.
    + eapply decodes_leaf.
      * cbn [dec0]. erewrite dbind_ok by (eapply read_byte_contr; exact Hr). cbn [Z.eqb orb Pos.eqb].
        erewrite dbind_ok by (eapply decode_longstring0_contr; [reflexivity|lia|exact Hs']). reflexivity.
      * reflexivity.
      * reflexivity.
      * constructor.
  - (* []byte *)
    destruct Hok as [_ Hlen].
    rewrite flat_map_concat in Hf, Hr. cbn [length] in Hf. rewrite app_length in Hf.
    assert (Hl4 : (4 <= fuel)%nat) by (cbn [be32 length] in Hf; lia).
    cbn [app] in Hr. rewrite <- app_assoc in Hr.
    assert (Hc : (length s <= length (concat (map (fun b => 0%Z :: be64 (f64_of_Z b)) s)))%nat).
    { clear. induction s; cbn [map concat length]; [lia|]. rewrite app_length. cbn [length]. lia. }
    set (d1 := set_ref0 (d_ref0 d ++ [VArr []])
                 (set_r (contr (concat (map (fun b => 0 :: be64 (f64_of_Z b)) s) ++ rest) e) d)).
    destruct (bytes_loop0 s fuel fuel d1 rest e) as (d' & E & R & Hh); [lia|cbn [be32 length] in Hf; lia|reflexivity|].
    eapply decodes_leaf.
    + cbn [dec0]. erewrite dbind_ok by (eapply read_byte_contr; exact Hr). cbn [Z.eqb orb Pos.eqb].
      unfold decode_strict0.
      erewrite dbind_ok by (change 4 with (len (be32 (len s))); eapply read_be_contr; [reflexivity|reflexivity]).
      rewrite be_val_be32, Z.mod_small by (pose proof (len_nonneg s); lia).
      erewrite dbind_ok by reflexivity.
      erewrite dbind_ok by exact E. reflexivity.
    + exact R.
    + exact Hh.
    + intros H. constructor. clear. induction s; cbn [map]; constructor; [constructor|exact IHs].
  - (* array *)
    destruct Hok as [Hlen Hall]. apply all_of_map in Hall.
    cbn [length app] in Hf, Hr. rewrite app_length in Hf. cbn [be32 length] in Hf.
    rewrite <- app_assoc in Hr.
    set (d1 := set_ref0 (d_ref0 d ++ [VArr []])
                 (set_r (contr (concat (map wire0 l) ++ rest) e) d)).
    pose proof (concat_wire_length l Hall) as Hcl.
    destruct (arr_loop0 l IH Hall fuel fuel d1 rest e) as (d' & vs & hs & E & R & Hh & U);
      [lia|lia|reflexivity|exact Hs|].
    exists d', (VArr vs), hs. split; [|split; [exact R|split; [exact Hh|]]].
    + cbn [dec0]. erewrite dbind_ok by (eapply read_byte_contr; exact Hr). cbn [Z.eqb orb Pos.eqb].
      unfold decode_strict0.
      erewrite dbind_ok by (change 4 with (len (be32 (len l))); eapply read_be_contr; [reflexivity|reflexivity]).
      rewrite be_val_be32, Z.mod_small by (pose proof (len_nonneg l); lia).
      erewrite dbind_ok by reflexivity.
      erewrite dbind_ok by exact E. reflexivity.
    + intros H HA. constructor. apply U. exact HA.
  - (* object *)
    destruct Hok as [Hnd Hall]. apply all_of_map in Hall.
    cbn [length app] in Hf, Hr. rewrite app_length in Hf. fold (wire_fields fs) in Hf, Hr.
    rewrite <- app_assoc in Hr. cbn [length] in Hf.
    pose proof (wire_fields_length fs) as Hwl.
    destruct (decode_object0_contr fs IH Hall Hnd fuel fuel
                (set_r (contr (wire_fields fs ++ [0; 0; 9] ++ rest) e) d) rest e)
      as (d' & m & hs & E & R & Hh & U); [lia|lia|reflexivity|].
    exists d', (VObj (length (d_heap d))), (m :: hs). split; [|split; [exact R|split; [exact Hh|]]].
    + cbn [dec0]. erewrite dbind_ok by (eapply read_byte_contr; exact Hr). cbn [Z.eqb orb Pos.eqb].
      erewrite dbind_ok by exact E. reflexivity.
    + intros H HA. destruct (U H HA) as [Hn Hu]. econstructor; [exact Hn|exact Hu|apply Permutation_refl].
  - (* typed object *)
    destruct Hok as (Htb & Htl & Hnd & Hall). apply all_of_map in Hall.
    cbn [length app] in Hf, Hr. rewrite !app_length in Hf. fold (wire_fields fs) in Hf, Hr.
    rewrite <- !app_assoc in Hr. cbn [length] in Hf.
    pose proof (wire_fields_length fs) as Hwl.
    set (d1 := set_r (contr (wire_fields fs ++ [0; 0; 9] ++ rest) e)
                 (set_ref0 (d_ref0 d ++ [VTyped [] None])
                    (set_r (contr (wire_utf8 ty ++ wire_fields fs ++ [0; 0; 9] ++ rest) e) d))).
    destruct (decode_object0_contr fs IH Hall Hnd fuel fuel d1 rest e)
      as (d' & m & hs & E & R & Hh & U); [lia|lia|reflexivity|].
    exists d', (VTyped ty (Some (length (d_heap d)))), (m :: hs). split; [|split; [exact R|split; [exact Hh|]]].
    + cbn [dec0]. erewrite dbind_ok by (eapply read_byte_contr; exact Hr). cbn [Z.eqb orb Pos.eqb].
      unfold decode_typed0. erewrite dbind_ok by reflexivity.
      erewrite dbind_ok by (eapply decode_string0_contr; [reflexivity|exact Htl|right; left; intros X; apply app_eq_nil in X; destruct X; discriminate]).
      erewrite dbind_ok by exact E. reflexivity.
    + intros H HA. destruct (U H HA) as [Hn Hu]. econstructor; [exact Hn|exact Hu|apply Permutation_refl].
Qed.
