(** AMF3 decoder on the encoder's wire format. *)
From Coq Require Import Permutation Sorted.
From Verif Require Import Base.Go Base.GoFacts Base.IO Base.Float64 Proofs.IOFacts Proofs.Float64
  Model.AmfTypes Model.Amf3 Model.Amf0 Spec.Amf Proofs.AmfFacts Proofs.Amf0RT Proofs.Amf3Enc.
Local Ltac Zify.zify_post_hook ::= Z.div_mod_to_equations.

(** * U29 *)
Ltac step_byte :=
  erewrite dbind_ok by (eapply read_byte_contr; reflexivity).

Lemma read_u29_contr d v rest e : 0 <= v < 536870912 ->
  d_r d = contr (wire_u29 v ++ rest) e -> read_u29 d = (set_r (contr rest e) d, Ok v).
Proof.
  intros Hv Hr. unfold read_u29. unfold wire_u29 in Hr.
  destruct (v <? 128) eqn:E1.
  { cbn [app] in Hr. erewrite dbind_ok by (eapply read_byte_contr; exact Hr).
    rewrite land128 by (unfold byte; lia). rewrite E1, Z.eqb_refl. rewrite land127, shiftl_mul by lia.
    unfold dret. rewrite u32_id by lia. do 2 f_equal. lia. }
  destruct (v <? 16384) eqn:E2.
  { cbn [app] in Hr. erewrite dbind_ok by (eapply read_byte_contr; exact Hr).
    rewrite land128 by (unfold byte; lia). replace (128 + v / 128 <? 128) with false by lia.
    cbn [Z.eqb]. step_byte.
    rewrite land128 by (unfold byte; lia). replace (v mod 128 <? 128) with true by lia. cbn [Z.eqb].
    rewrite !land127, !shiftl_mul by lia. change (2 ^ 7) with 128.
    unfold dret, u32. do 2 f_equal. lia. }
  destruct (v <? 2097152) eqn:E3.
  { cbn [app] in Hr. erewrite dbind_ok by (eapply read_byte_contr; exact Hr).
    rewrite land128 by (unfold byte; lia). replace (128 + v / 16384 <? 128) with false by lia.
    cbn [Z.eqb]. step_byte.
    rewrite land128 by (unfold byte; lia). replace (128 + (v / 128) mod 128 <? 128) with false by lia. cbn [Z.eqb].
    step_byte.
    rewrite land128 by (unfold byte; lia). replace (v mod 128 <? 128) with true by lia. cbn [Z.eqb].
    rewrite !land127, !shiftl_mul by lia. change (2 ^ 7) with 128.
    unfold dret, u32. do 2 f_equal. lia. }
  cbn [app] in Hr. erewrite dbind_ok by (eapply read_byte_contr; exact Hr).
  rewrite land128 by (unfold byte; lia). replace (128 + v / 4194304 <? 128) with false by lia.
  cbn [Z.eqb]. step_byte.
  rewrite land128 by (unfold byte; lia). replace (128 + (v / 32768) mod 128 <? 128) with false by lia. cbn [Z.eqb].
  step_byte.
  rewrite land128 by (unfold byte; lia). replace (128 + (v / 256) mod 128 <? 128) with false by lia. cbn [Z.eqb].
  step_byte.
  rewrite !land127, !shiftl_mul by lia. change (2 ^ 7) with 128. change (2 ^ 8) with 256.
  unfold dret, u32. do 2 f_equal. lia.
Qed.

Lemma decode_u29_contr d v rest e : 0 <= v < 268435456 ->
  d_r d = contr (wire_u29 (2 * v + 1) ++ rest) e -> decode_u29 d = (set_r (contr rest e) d, Ok (false, v)).
Proof.
  intros Hv Hr. unfold decode_u29.
  erewrite dbind_ok by (eapply read_u29_contr; [|exact Hr]; lia). unfold dret. do 2 f_equal.
  change 1 with (2 ^ 1 - 1) at 2. rewrite land_ones, shiftr_div by lia. change (2 ^ 1) with 2.
  f_equal; lia.
Qed.

Lemma decode_string3_contr d s rest e : len s < 268435456 ->
  d_r d = contr (wire_str3 s ++ rest) e ->
  decode_string3 d = (set_str3 (d_str3 d ++ literal s) (set_r (contr rest e) d), Ok s).
Proof.
  intros Hs Hr. unfold decode_string3. unfold wire_str3 in Hr. rewrite <- app_assoc in Hr.
  pose proof (len_nonneg s).
  erewrite dbind_ok by (eapply decode_u29_contr; [|exact Hr]; lia). cbn iota.
  destruct (len s =? 0) eqn:E.
  - assert (s = []) by (apply len_zero; lia). subst s. cbn [app].
    cbn [literal]. rewrite app_nil_r. destruct d; reflexivity.
  - erewrite dbind_ok by (eapply read_bytes_contr; [reflexivity|lia]).
    destruct s; [discriminate|reflexivity].
Qed.

Lemma wire_str3_nonempty s : (1 <= length (wire_str3 s))%nat.
Proof.
  unfold wire_str3. rewrite app_length. pose proof (wire_u29_len (2 * len s + 1) ltac:(pose proof (len_nonneg s); lia)) as H.
  unfold len in H at 1 3. lia.
Qed.
Lemma w3_nonempty t : ok3 t -> (1 <= length (w3 t))%nat.
Proof.
  destruct t; cbn [ok3 w3]; intros H; try contradiction; cbn [length];
    repeat match goal with |- context [if ?c then _ else _] => destruct c end; cbn [length]; lia.
Qed.

(** The literal strings, in the order of the wire. *)
Fixpoint st3 (t : tree) : list bytes :=
  match t with
  | TStr s => literal s
  | TArr l => concat (map st3 l)
  | TObj fs => concat (map literal (map fst (sort_keys fs))) ++
                 concat (map snd (sort_keys (map (fun p => (fst p, st3 (snd p))) fs)))
  | TTyped ty fs => literal ty ++ concat (map literal (map fst (sort_keys fs))) ++
                 concat (map snd (sort_keys (map (fun p => (fst p, st3 (snd p))) fs)))
  | _ => []
  end.

Definition decodes3 (m : Dm value) (d : dstate) (rest : bytes) (e : rend) (p : pval) (ss : list bytes) : Prop :=
  exists d' v hs, m d = (d', Ok v) /\ d_r d' = contr rest e /\ d_heap d' = d_heap d ++ hs /\
    local_unfolds (d_heap d') (length (d_heap d)) (length (d_heap d')) v p /\ d_str3 d' = d_str3 d ++ ss.
Lemma decodes3_leaf m d d' v p rest e ss : m d = (d', Ok v) -> d_r d' = contr rest e -> d_heap d' = d_heap d ->
  d_str3 d' = d_str3 d ++ ss -> (forall H, unfolds H v p) -> decodes3 m d rest e p ss.
Proof.
  intros Hm Hr Hh Hs Hu. exists d', v, []. split; [exact Hm|]. split; [exact Hr|].
  split; [rewrite app_nil_r; exact Hh|]. split; [intros H _; apply Hu|exact Hs].
Qed.

Definition RT3 (t : tree) : Prop :=
  ok3 t -> forall fuel d rest e, (length (w3 t) < fuel)%nat ->
  d_r d = contr (w3 t ++ rest) e -> decodes3 (dec3 fuel) d rest e (img3 t) (st3 t).

Lemma arr_loop3 l : Forall RT3 l -> Forall ok3 l ->
  forall fuel k d rest e, (length (concat (map w3 l)) < fuel)%nat -> (length l <= k)%nat ->
  d_r d = contr (concat (map w3 l) ++ rest) e ->
  exists d' vs hs, loop_n (dec3 fuel) k (len l) d = (d', Ok vs) /\ d_r d' = contr rest e /\
    d_heap d' = d_heap d ++ hs /\
    (forall H, agree H (d_heap d') (length (d_heap d)) (length (d_heap d')) ->
      Forall2 (unfolds H) vs (map img3 l)) /\
    d_str3 d' = d_str3 d ++ concat (map st3 l).
Proof.
  induction l as [|t l IH]; intros HRT Hok fuel k d rest e Hf Hk Hr.
  - exists d, [], []. split; [destruct k; reflexivity|]. split; [exact Hr|]. split; [rewrite app_nil_r; reflexivity|].
    split; [intros; constructor|]. symmetry. apply app_nil_r.
  - inversion HRT as [|? ? HRt HRl]; inversion Hok as [|? ? Hot Hol]; subst.
    destruct k as [|k]; [cbn [length] in Hk; lia|].
    cbn [map concat] in Hf, Hr. rewrite app_length in Hf. rewrite <- app_assoc in Hr.
    destruct (HRt Hot fuel d (concat (map w3 l) ++ rest) e ltac:(lia) Hr) as (d1 & v & hs1 & E1 & R1 & H1 & U1 & S1).
    destruct (IH HRl Hol fuel k d1 rest e ltac:(lia) ltac:(cbn [length] in Hk; lia) R1) as (d2 & vs & hs2 & E2 & R2 & H2 & U2 & S2).
    exists d2, (v :: vs), (hs1 ++ hs2). split.
    + cbn [loop_n]. destruct (len (t :: l) <=? 0) eqn:E0; [rewrite len_cons in E0; pose proof (len_nonneg l); lia|].
      erewrite dbind_ok by exact E1.
      replace (len (t :: l) - 1) with (len l) by (rewrite len_cons; lia).
      erewrite dbind_ok by exact E2. reflexivity.
    + split; [exact R2|]. split; [rewrite H2, H1, app_assoc; reflexivity|].
      split; [|cbn [map concat]; rewrite S2, S1, app_assoc; reflexivity]. intros H HA. cbn [map]. constructor.
      * apply U1. intros i Hi. rewrite HA; [|rewrite H2, app_length; lia].
        rewrite H2. rewrite nth_error_app1 by lia. reflexivity.
      * apply U2. intros i Hi. apply HA. rewrite H1, app_length in Hi. lia.
Qed.

Definition field_ok3 (p : bytes * tree) : Prop :=
  (is_bytes (fst p) /\ len (fst p) < 268435456) /\ ok3 (snd p).

(** The names of the sealed members. *)
Lemma names_loop3 ks : Forall (fun k => len k < 268435456) ks ->
  forall k d rest e, (length ks <= k)%nat ->
  d_r d = contr (concat (map wire_str3 ks) ++ rest) e ->
  exists d', loop_n decode_string3 k (len ks) d = (d', Ok ks) /\ d_r d' = contr rest e /\ d_heap d' = d_heap d /\
    d_str3 d' = d_str3 d ++ concat (map literal ks).
Proof.
  induction ks as [|x ks IH]; intros Hok k d rest e Hk Hr.
  - exists d. split; [destruct k; reflexivity|]. split; [exact Hr|split; [reflexivity|]]. symmetry. apply app_nil_r.
  - inversion Hok; subst. destruct k as [|k]; [cbn [length] in Hk; lia|].
    cbn [map concat] in Hr. rewrite <- app_assoc in Hr.
    pose proof (decode_string3_contr d x _ e ltac:(eassumption) Hr) as E1.
    destruct (IH ltac:(assumption) k (set_str3 (d_str3 d ++ literal x) (set_r (contr (concat (map wire_str3 ks) ++ rest) e) d)) rest e)
      as (d' & E2 & R2 & H2' & S2); [cbn [length] in Hk; lia|reflexivity|].
    exists d'. split; [|split; [exact R2|split; [exact H2'|]]].
    2:{ rewrite S2. cbn [d_str3 set_str3 map concat]. rewrite <- app_assoc. reflexivity. }
    cbn [loop_n]. destruct (len (x :: ks) <=? 0) eqn:E0; [rewrite len_cons in E0; pose proof (len_nonneg ks); lia|].
    erewrite dbind_ok by exact E1.
    replace (len (x :: ks) - 1) with (len ks) by (rewrite len_cons; lia).
    erewrite dbind_ok by exact E2. reflexivity.
Qed.

(** The values of the sealed members of an object whose map sits after h. *)
Lemma props_loop3 fs : Forall (fun p => RT3 (snd p)) fs -> Forall field_ok3 fs ->
  forall fuel d rest e h m hs,
  (length (concat (map (fun p => w3 (snd p)) fs)) < fuel)%nat ->
  d_r d = contr (concat (map (fun p => w3 (snd p)) fs) ++ rest) e ->
  d_heap d = h ++ m :: hs ->
  NoDup (map fst fs) -> (forall key, In key (map fst fs) -> ~ In key (map fst m)) ->
  exists d' m' hs', props_loop (dec3 fuel) (length h) (map fst fs) d = (d', Ok tt) /\ d_r d' = contr rest e /\
    d_heap d' = h ++ (m ++ m') :: hs ++ hs' /\
    (forall H, agree H (d_heap d') (length h + 1 + length hs) (length (d_heap d')) ->
      Forall2 (fun a b => fst a = fst b /\ unfolds H (snd a) (snd b)) m'
              (map (fun p => (fst p, img3 (snd p))) fs)) /\
    d_str3 d' = d_str3 d ++ concat (map (fun p => st3 (snd p)) fs).
Proof.
  induction fs as [|[key t] fs IH]; intros HRT Hok fuel d rest e h m hs Hf Hr Hh Hnd Hfr.
  - exists d, [], []. split; [reflexivity|]. split; [exact Hr|]. split; [rewrite Hh, !app_nil_r; reflexivity|].
    split; [intros; constructor|]. symmetry. apply app_nil_r.
  - inversion HRT as [|? ? HRt HRl]; inversion Hok as [|? ? [[Hkb Hkl] Hot] Hol]; subst. cbn [fst snd] in *.
    cbn [map concat fst snd] in Hf, Hr. rewrite <- !app_assoc in Hr. rewrite !app_length in Hf.
    destruct (HRt Hot fuel d (concat (map (fun p => w3 (snd p)) fs) ++ rest) e ltac:(lia) Hr) as (d1 & v & hs1 & E1 & R1 & H1 & U1 & S1).
    rewrite Hh in H1.
    set (d2 := set_heap (upd_nth (length h) (map_set key v) (d_heap d1)) d1).
    assert (Hd2 : d_heap d2 = h ++ (m ++ [(key, v)]) :: (hs ++ hs1)).
    { unfold d2. cbn [d_heap set_heap]. rewrite H1, <- app_assoc, <- app_comm_cons, upd_nth_app.
      rewrite map_set_fresh by (apply Hfr; left; reflexivity). reflexivity. }
    cbn [map fst] in Hnd. apply NoDup_cons_iff in Hnd. destruct Hnd as [Hni Hnd].
    destruct (IH HRl Hol fuel d2 rest e h (m ++ [(key, v)]) (hs ++ hs1)) as (d3 & m' & hs' & E3 & R3 & H3 & U3 & S3);
      [lia|exact R1|exact Hd2|exact Hnd| |].
    { intros k0 Hk0. rewrite map_app, in_app_iff. cbn [map fst In]. intros [Hin|[<-|[]]].
      - eapply Hfr; [right; exact Hk0|exact Hin].
      - contradiction. }
    exists d3, ((key, v) :: m'), (hs1 ++ hs'). split.
    + cbn [props_loop map fst]. erewrite dbind_ok by exact E1. erewrite dbind_ok; [|reflexivity]. exact E3.
    + split; [exact R3|]. split.
      * rewrite H3, <- !app_assoc. reflexivity.
      * split; [|cbn [map concat snd]; rewrite S3; cbn [d_str3 set_heap d2]; rewrite S1, <- app_assoc; reflexivity].
        intros H HA. cbn [map fst snd]. constructor.
        -- cbn [fst snd]. split; [reflexivity|]. apply U1. intros i Hi.
           rewrite Hh, app_length in Hi. cbn [length] in Hi.
           rewrite H1, !app_length in Hi. cbn [length] in Hi. rewrite ?app_length in Hi.
           rewrite HA.
           ++ rewrite H3, H1. rewrite <- (app_assoc h), <- app_comm_cons.
              apply nth_error_mid. rewrite app_length. lia.
           ++ rewrite H3, !app_length. cbn [length]. rewrite !app_length. lia.
        -- apply U3. intros i Hi. apply HA. rewrite app_length in Hi. lia.
Qed.

Lemma concat_str3_length ks : (length ks <= length (concat (map wire_str3 ks)))%nat.
Proof.
  induction ks as [|k ks IH]; cbn [map concat length]; [lia|].
  rewrite app_length. pose proof (wire_str3_nonempty k). lia.
Qed.

(** decodeObject on an inline, sealed object. *)
Lemma decode_object3_contr ty fs : Forall (fun p => RT3 (snd p)) fs -> Forall field_ok3 fs ->
  NoDup (map fst fs) -> len fs < 33554432 -> len ty < 268435456 ->
  forall fuel k d rest e,
  (length (concat (map (fun p => w3 (snd p)) fs)) < fuel)%nat -> (length fs <= k)%nat ->
  d_r d = contr (wire_u29 (16 * len fs + 3) ++ wire_str3 ty ++ concat (map wire_str3 (map fst fs)) ++
                 concat (map (fun p => w3 (snd p)) fs) ++ rest) e ->
  exists d' m hs', decode_object3 (dec3 fuel) k d = (d', Ok (VObj (length (d_heap d)))) /\ d_r d' = contr rest e /\
    d_heap d' = d_heap d ++ m :: hs' /\
    (forall H, agree H (d_heap d') (length (d_heap d)) (length (d_heap d')) ->
      nth_error H (length (d_heap d)) = Some m /\
      Forall2 (fun a b => fst a = fst b /\ unfolds H (snd a) (snd b)) m
              (map (fun p => (fst p, img3 (snd p))) fs)) /\
    d_str3 d' = d_str3 d ++ literal ty ++ concat (map literal (map fst fs)) ++
                concat (map (fun p => st3 (snd p)) fs).
Proof.
  intros HRT Hok Hnd Hlen Hty fuel k d rest e Hf Hk Hr. unfold decode_object3. pose proof (len_nonneg fs) as Hl0.
  replace (16 * len fs + 3) with (2 * (8 * len fs + 1) + 1) in Hr by lia.
  erewrite dbind_ok by (eapply decode_u29_contr; [|exact Hr]; lia). cbn iota.
  set (d1 := set_r _ d).
  assert (Et : exists d2 t, decode_trait k (8 * len fs + 1) d1 = (d2, Ok t) /\
     t_ext t = false /\ t_dyn t = false /\ t_props t = map fst fs /\
     d_r d2 = contr (concat (map (fun p => w3 (snd p)) fs) ++ rest) e /\ d_heap d2 = d_heap d /\
     d_str3 d2 = d_str3 d ++ literal ty ++ concat (map literal (map fst fs))).
  { unfold decode_trait.
    assert (Hb0 : Z.land (8 * len fs + 1) 1 = 1).
    { change 1 with (2 ^ 1 - 1) at 2. rewrite land_ones by lia. change (2 ^ 1) with 2. lia. }
    rewrite Hb0. cbn [Z.eqb Pos.eqb].
    pose proof (decode_string3_contr d1 ty _ e Hty eq_refl) as E1.
    erewrite dbind_ok by exact E1.
    replace (Z.shiftr (8 * len fs + 1) 3) with (len (map fst fs))
      by (rewrite shiftr_div, len_map by lia; change (2 ^ 3) with 8; lia).
    destruct (names_loop3 (map fst fs)) with (k := k) (e := e)
      (d := set_str3 (d_str3 d1 ++ literal ty) (set_r (contr (concat (map wire_str3 (map fst fs)) ++
                 concat (map (fun p => w3 (snd p)) fs) ++ rest) e) d1))
      (rest := concat (map (fun p => w3 (snd p)) fs) ++ rest) as (d2 & E2 & R2 & H2 & S2).
    - rewrite Forall_map. eapply Forall_impl; [|exact Hok]. intros p [[_ Hp] _]. exact Hp.
    - rewrite map_length. exact Hk.
    - reflexivity.
    - erewrite dbind_ok by exact E2. eexists _, _. split; [reflexivity|].
      cbn [t_ext t_dyn t_props].
      assert (Hz : forall b, b = 2 \/ b = 4 -> (Z.land (8 * len fs + 1) b =? 1) = false).
      { intros b Hb. apply Z.eqb_neq. intros X.
        assert (Y : Z.testbit (Z.land (8 * len fs + 1) b) 0 = true) by (rewrite X; reflexivity).
        rewrite Z.land_spec in Y. apply andb_true_iff in Y. destruct Y as [_ Y]. destruct Hb; subst b; discriminate. }
      split; [apply Hz; auto|]. split; [apply Hz; auto|]. split; [reflexivity|].
      split; [exact R2|]. split; [exact H2|]. cbn [d_str3 set_trait3]. rewrite S2. cbn [d_str3 set_str3 d1 set_r].
      rewrite <- app_assoc. reflexivity. }
  destruct Et as (d2 & t & E2 & Te & Td & Tp & R2 & H2 & S2).
  erewrite dbind_ok by exact E2. erewrite dbind_ok by reflexivity. rewrite Te.
  erewrite dbind_ok by reflexivity. rewrite Tp, Td.
  set (d3 := set_heap _ _).
  destruct (props_loop3 fs HRT Hok fuel d3 rest e (d_heap d) [] [] Hf) as (d4 & m & hs' & E & R & Hh & U & S4).
  - exact R2.
  - unfold d3. cbn [d_heap set_heap set_obj3]. rewrite H2. reflexivity.
  - exact Hnd.
  - intros; cbn; tauto.
  - exists d4, m, hs'. split; [|split; [exact R|split; [exact Hh|split]]].
    3:{ rewrite S4. cbn [d3 d_str3 set_heap set_obj3]. rewrite S2, <- !app_assoc. reflexivity. }
    + cbn [d_heap set_obj3]. rewrite H2.
      erewrite dbind_ok by exact E. erewrite dbind_ok by reflexivity. reflexivity.
    + intros H HA. split.
      * rewrite HA by (rewrite Hh, app_length; cbn [length]; lia). rewrite Hh. apply nth_error_len.
      * apply U. intros i Hi. apply HA. cbn [length] in Hi. lia.
Qed.

(** ** Dates *)
Lemma date_back sec : Z.abs sec * 1000 <= 9007199254740992 ->
  f64_to_i64 (f64_div_c (f64_mul_c (f64_of_Z sec) 1000) 1000) = sec.
Proof.
  intros Hs. destruct (Z.eq_dec sec 0) as [->|Hn]; [vm_compute; reflexivity|].
  apply f64_to_i64_int; [|lia|exact Hn].
  apply f64_div_int; [|lia|lia|exact Hn].
  apply f64_round_scale_int; [apply f64_of_Z_exact; lia|exact Hn|lia|exact Hs].
Qed.

Lemma dec3_double d bits rest e fuel : 0 <= bits < 18446744073709551616 ->
  d_r d = contr (5 :: be64 bits ++ rest) e ->
  dec3 (S fuel) d = (set_r (contr rest e) d, Ok (VNum bits)).
Proof.
  intros Hb Hr. cbn [dec3].
  erewrite dbind_ok by (eapply read_byte_contr; exact Hr). cbn [Z.eqb orb Pos.eqb].
  erewrite dbind_ok by (change 8 with (len (be64 bits)); eapply read_be_contr; [reflexivity|reflexivity]).
  rewrite be_val_be64, Z.mod_small by exact Hb. reflexivity.
Qed.
Lemma dec3_integer d v rest e fuel : 0 <= v < 536870912 ->
  d_r d = contr (4 :: wire_u29 v ++ rest) e ->
  dec3 (S fuel) d = (set_r (contr rest e) d, Ok (VU32 v)).
Proof.
  intros Hb Hr. cbn [dec3].
  erewrite dbind_ok by (eapply read_byte_contr; exact Hr). cbn [Z.eqb orb Pos.eqb].
  erewrite dbind_ok by (eapply read_u29_contr; [exact Hb|reflexivity]). reflexivity.
Qed.

Lemma read_into_contr d a b e : d_r d = contr (a ++ b) e -> 0 < len a ->
  read_into (len a) d = (set_r (contr b e) d, Ok a).
Proof.
  intros Hr Ha. unfold read_into. rewrite Hr, read_contr by assumption.
  rewrite Z.sub_diag. cbn [Z.to_nat repeat]. rewrite app_nil_r. reflexivity.
Qed.

Lemma decode_bytearray3_contr d s rest e : len s < 268435456 ->
  d_r d = contr (wire_str3 s ++ rest) e ->
  exists c, decode_bytearray3 d = (set_obj3 c (set_r (contr rest e) d), Ok (VBytes s)).
Proof.
  intros Hs Hr. unfold decode_bytearray3. unfold wire_str3 in Hr. rewrite <- app_assoc in Hr.
  pose proof (len_nonneg s).
  erewrite dbind_ok by (eapply decode_u29_contr; [|exact Hr]; lia). cbn iota.
  destruct (len s =? 0) eqn:E.
  - assert (s = []) by (apply len_zero; lia). subst s. cbn [app].
    exists (d_obj3 d). destruct d; reflexivity.
  - erewrite dbind_ok by (eapply read_into_contr; [reflexivity|lia]).
    erewrite dbind_ok by reflexivity.
    exists (d_obj3 d ++ [VBytes s]). reflexivity.
Qed.

Lemma decode_date3_contr d bits rest e : 0 <= bits < 18446744073709551616 ->
  d_r d = contr (1 :: be64 bits ++ rest) e ->
  exists c, decode_date3 d = (set_obj3 c (set_r (contr rest e) d), Ok (VTime (f64_to_i64 (f64_div_c bits 1000)))).
Proof.
  intros Hb Hr. unfold decode_date3.
  change (1 :: be64 bits ++ rest) with (wire_u29 (2 * 0 + 1) ++ be64 bits ++ rest) in Hr.
  erewrite dbind_ok by (eapply decode_u29_contr; [|exact Hr]; lia). cbn iota.
  erewrite dbind_ok.
  2:{ change 8 with (len (be64 bits)). erewrite read_be_contr; [|reflexivity|reflexivity].
      rewrite be_val_be64, Z.mod_small by exact Hb. reflexivity. }
  erewrite dbind_ok by reflexivity. eexists. reflexivity.
Qed.

Lemma all_sorted {P : bytes * tree -> Prop} fs : Forall P fs -> Forall P (sort_keys fs).
Proof. intros H. eapply Permutation_Forall; [apply sort_keys_perm|exact H]. Qed.

Lemma sorted_of {A} (f : tree -> A) fs : map snd (sort_keys (map (fun p => (fst p, f (snd p))) fs)) =
  map (fun p => f (snd p)) (sort_keys fs).
Proof. rewrite sort_keys_map, map_map. reflexivity. Qed.

Lemma object_case ty fs fuel d rest e :
  Forall (fun p => RT3 (snd p)) fs -> len fs < 33554432 -> NoDup (map fst fs) -> Forall field_ok3 fs ->
  len ty < 268435456 ->
  let s := wire_u29 (16 * len fs + 3) ++ wire_str3 ty ++
           concat (map wire_str3 (map fst (sort_keys fs))) ++
           concat (map snd (sort_keys (map (fun p => (fst p, w3 (snd p))) fs))) in
  (length s < fuel)%nat -> d_r d = contr ((10 :: s) ++ rest) e ->
  decodes3 (dec3 (S fuel)) d rest e (PObj (map (fun p => (fst p, img3 (snd p))) fs))
    (literal ty ++ concat (map literal (map fst (sort_keys fs))) ++
     concat (map snd (sort_keys (map (fun p => (fst p, st3 (snd p))) fs)))).
Proof.
  intros IH Hlen Hnd Hall Hty s Hf Hr. unfold s in Hf, Hr. rewrite (sorted_of w3) in Hf, Hr. rewrite (sorted_of st3).
  cbn [app] in Hr. rewrite !app_length in Hf. rewrite <- !app_assoc in Hr.
  pose proof (sort_keys_perm fs) as HP.
  pose proof (concat_str3_length (map fst (sort_keys fs))) as Hcl. rewrite map_length in Hcl.
  set (gs := sort_keys fs) in *.
  rewrite (len_perm _ _ HP) in Hr.
  destruct (decode_object3_contr ty gs) with (fuel := fuel) (k := fuel) (rest := rest) (e := e)
    (d := set_r (contr (wire_u29 (16 * len gs + 3) ++ wire_str3 ty ++
           concat (map wire_str3 (map fst gs)) ++ concat (map (fun p => w3 (snd p)) gs) ++ rest) e) d)
    as (d' & m & hs & E & R & Hh & U & S').
  - apply all_sorted. exact IH.
  - apply all_sorted. exact Hall.
  - eapply Permutation_NoDup; [|exact Hnd]. apply Permutation_map. exact HP.
  - rewrite <- (len_perm _ _ HP). exact Hlen.
  - exact Hty.
  - lia.
  - lia.
  - reflexivity.
  - exists d', (VObj (length (d_heap d))), (m :: hs). split; [|split; [exact R|split; [exact Hh|split; [|exact S']]]].
    + cbn [dec3]. erewrite dbind_ok by (eapply read_byte_contr; exact Hr). cbn [Z.eqb orb Pos.eqb]. exact E.
    + intros H HA. destruct (U H HA) as [Hn Hu]. econstructor; [exact Hn|exact Hu|].
      apply Permutation_map. apply Permutation_sym. exact HP.
Qed.

Theorem dec3_wire t : RT3 t.
Proof.
  induction t as [|b|b|w z|w z|s|s|s|l IH|fs IH|ty fs IH|] using tree_ind';
    intros Hok [|fuel] d rest e Hf Hr; cbn [ok3] in Hok; try contradiction; try (exfalso; lia);
    cbn [w3 img3 st3] in *.
  - eapply decodes3_leaf.
    + cbn [dec3]. erewrite dbind_ok by (eapply read_byte_contr; exact Hr). cbn [Z.eqb orb Pos.eqb]. reflexivity.
    + reflexivity.
    + reflexivity.
    + first [reflexivity | symmetry; apply app_nil_r].
    + constructor.
  - eapply decodes3_leaf with (v := VBool b) (d' := set_r (contr rest e) d).
    + cbn [dec3]. erewrite dbind_ok by (eapply read_byte_contr; exact Hr). destruct b; reflexivity.
    + reflexivity.
    + reflexivity.
    + first [reflexivity | symmetry; apply app_nil_r].
    + constructor.
  - eapply decodes3_leaf; [apply dec3_double; [exact Hok|exact Hr]|reflexivity|reflexivity|symmetry; apply app_nil_r|constructor].
  - destruct (negb w && (0 <=? z) && (z <? 536870911)) eqn:E.
    + eapply decodes3_leaf; [apply dec3_integer; [|exact Hr]; lia|reflexivity|reflexivity|symmetry; apply app_nil_r|constructor].
    + eapply decodes3_leaf; [apply dec3_double; [apply f64_of_Z_range|exact Hr]|reflexivity|reflexivity|symmetry; apply app_nil_r|constructor].
  - destruct (negb w && (0 <=? z) && (z <? 536870911)) eqn:E.
    + eapply decodes3_leaf; [apply dec3_integer; [|exact Hr]; lia|reflexivity|reflexivity|symmetry; apply app_nil_r|constructor].
    + eapply decodes3_leaf; [apply dec3_double; [apply f64_of_Z_range|exact Hr]|reflexivity|reflexivity|symmetry; apply app_nil_r|constructor].
  - pose proof (decode_string3_contr (set_r (contr (wire_str3 s ++ rest) e) d) s rest e (proj2 Hok) eq_refl) as E.
    eapply decodes3_leaf.
    + cbn [dec3]. erewrite dbind_ok by (eapply read_byte_contr; exact Hr). cbn [Z.eqb orb Pos.eqb].
      erewrite dbind_ok by exact E. reflexivity.
    + reflexivity.
    + reflexivity.
    + first [reflexivity | symmetry; apply app_nil_r].
    + constructor.
  - cbn [app] in Hr.
    destruct (decode_date3_contr (set_r (contr (1 :: be64 (f64_mul_c (f64_of_Z s) 1000) ++ rest) e) d)
                (f64_mul_c (f64_of_Z s) 1000) rest e) as [c E].
    { apply f64_mul_c_range; [apply f64_of_Z_range|lia]. }
    { reflexivity. }
    eapply decodes3_leaf.
    + cbn [dec3]. erewrite dbind_ok by (eapply read_byte_contr; exact Hr). cbn [Z.eqb orb Pos.eqb]. exact E.
    + reflexivity.
    + reflexivity.
    + first [reflexivity | symmetry; apply app_nil_r].
    + rewrite date_back by exact Hok. constructor.
  - destruct (decode_bytearray3_contr (set_r (contr (wire_str3 s ++ rest) e) d) s rest e (proj2 Hok) eq_refl) as [c E].
    eapply decodes3_leaf.
    + cbn [dec3]. erewrite dbind_ok by (eapply read_byte_contr; exact Hr). cbn [Z.eqb orb Pos.eqb]. exact E.
    + reflexivity.
    + reflexivity.
    + first [reflexivity | symmetry; apply app_nil_r].
    + constructor.
  - (* array *)
    destruct Hok as [Hlen Hall]. apply all_of_map in Hall. pose proof (len_nonneg l) as Hl0.
    cbn [app length] in Hf, Hr. rewrite app_length in Hf. cbn [length] in Hf. rewrite <- app_assoc in Hr. cbn [app] in Hr.
    assert (Hcl : (length l <= length (concat (map w3 l)))%nat).
    { clear - Hall. induction Hall as [|t l Ht _ IHl]; cbn [map concat length]; [lia|].
      rewrite app_length. pose proof (w3_nonempty t Ht). lia. }
    set (d1 := set_r (contr (1 :: concat (map w3 l) ++ rest) e) d).
    pose proof (decode_string3_contr d1 [] (concat (map w3 l) ++ rest) e ltac:(unfold len; cbn [length]; lia) eq_refl) as E1.
    set (d2 := set_heap (d_heap d ++ [[]]) (set_obj3 (d_obj3 d ++ [VEcma [] None])
                (set_str3 (d_str3 d1 ++ literal []) (set_r (contr (concat (map w3 l) ++ rest) e) d1)))).
    destruct (arr_loop3 l IH Hall fuel fuel d2 rest e) as (d' & vs & hs & E & R & Hh & U & S');
      [lia|lia|reflexivity|].
    change (d_heap d2) with (d_heap d ++ [[]] : list omap) in Hh, U.
    exists d', (VEcma vs (Some (length (d_heap d)))), ([] :: hs). split; [|split; [exact R|split; [|split]]].
    4:{ rewrite S'. cbn [d2 d_str3 set_heap set_obj3 set_str3 literal]. rewrite app_nil_r. reflexivity. }
    + cbn [dec3]. erewrite dbind_ok by (eapply read_byte_contr; exact Hr). cbn [Z.eqb orb Pos.eqb].
      unfold decode_array3.
      erewrite dbind_ok by (eapply decode_u29_contr; [|reflexivity]; lia). cbn iota.
      erewrite dbind_ok by exact E1. erewrite dbind_ok by reflexivity. erewrite dbind_ok by reflexivity.
      erewrite dbind_ok; [|destruct fuel; reflexivity].
      erewrite dbind_ok by exact E. reflexivity.
    + rewrite Hh, <- app_assoc. reflexivity.
    + intros H HA. rewrite app_length in U. cbn [length] in U.
      eapply U_ecma with (m := []) (fs := []).
      * apply U. intros i Hi. apply HA. lia.
      * rewrite HA by (rewrite Hh, !app_length; cbn [length]; lia). rewrite Hh, <- app_assoc. apply nth_error_len.
      * constructor.
      * constructor.
  - (* object *)
    destruct Hok as (Hlen & Hnd & Hall). apply all_of_map in Hall. cbn [length] in Hf.
    eapply object_case with (ty := []); [exact IH|exact Hlen|exact Hnd|exact Hall|unfold len; cbn [length]; lia| |exact Hr]; lia.
  - destruct Hok as ([Htb Htl] & Hlen & Hnd & Hall). apply all_of_map in Hall. cbn [length] in Hf.
    eapply object_case with (ty := ty); [exact IH|exact Hlen|exact Hnd|exact Hall|exact Htl| |exact Hr]; lia.
Qed.

(** * The relational wire format *)
Lemma w3_wire t : ok3 t -> wire3 t (w3 t).
Proof.
  induction t as [|b|b|w z|w z|s|s|s|l IH|fs IH|ty fs IH|] using tree_ind'; cbn [ok3]; intros Hok;
    try contradiction; cbn [w3]; try solve [constructor].
  - destruct Hok as [Hr Hc]. destruct (negb w && (0 <=? z) && (z <? 536870911)) eqn:E.
    + apply (W_int true w z); [destruct w; [discriminate|reflexivity]|lia].
    + apply (W_num true w z). destruct w; [left; reflexivity|right]. cbn in E. lia.
  - destruct (negb w && (0 <=? z) && (z <? 536870911)) eqn:E.
    + apply (W_int false w z); [destruct w; [discriminate|reflexivity]|lia].
    + apply (W_num false w z). destruct w; [left; reflexivity|right]. cbn in E. lia.
  - destruct Hok as [_ Hall]. apply all_of_map in Hall. constructor.
    induction l as [|x l IHl]; cbn [map]; constructor; inversion IH; inversion Hall; subst; auto.
  - destruct Hok as (_ & Hnd & Hall). apply all_of_map in Hall.
    rewrite sorted_of. rewrite <- (map_map snd w3).
    apply W_obj with (fs' := sort_keys fs); [apply sort_keys_perm|apply sort_keys_sorted; exact Hnd|].
    pose proof (all_sorted fs IH) as IH'. pose proof (all_sorted fs Hall) as Hall'. cbn beta in *.
    revert IH' Hall'. generalize (sort_keys fs). intros gs IH' Hall'.
    induction gs as [|x gs IHg]; cbn [map]; constructor; inversion IH'; inversion Hall'; subst; auto. tauto.
  - destruct Hok as (_ & _ & Hnd & Hall). apply all_of_map in Hall.
    rewrite sorted_of. rewrite <- (map_map snd w3).
    apply W_typed with (fs' := sort_keys fs); [apply sort_keys_perm|apply sort_keys_sorted; exact Hnd|].
    pose proof (all_sorted fs IH) as IH'. pose proof (all_sorted fs Hall) as Hall'. cbn beta in *.
    revert IH' Hall'. generalize (sort_keys fs). intros gs IH' Hall'.
    induction gs as [|x gs IHg]; cbn [map]; constructor; inversion IH'; inversion Hall'; subst; auto. tauto.
Qed.
