(** AMF3: what Decode accepts is a layout of Spec/Amf3Doc.v, up to missing bytes of a last blob. *)
From Verif Require Import Base.Go Base.GoFacts Base.IO Base.Float64 Proofs.IOFacts
  Model.AmfTypes Model.Amf3 Model.Amf0 Spec.Amf Spec.AmfDoc Spec.Amf3Doc Proofs.AmfFacts Proofs.AmfContr Proofs.Amf0Acc Proofs.Amf3Enc Proofs.Amf3RT Proofs.Amf3Doc.
Local Ltac Zify.zify_post_hook ::= Z.div_mod_to_equations.

(** A step that succeeds on one piece s consumes w, possibly completed with zeros at the end of the input, with w related by G
    to the result and the tables before and after. *)
Definition acc3 {A} (m : Dm A) (G : tables -> bytes -> A -> tables -> Prop) : Prop := forall d s e d' a T, is_bytes s -> d_r d = contr s e -> rel T d -> m d = (d', Ok a) ->
  exists w rest k T', s ++ repeat 0 k = w ++ rest /\ (k = 0%nat \/ rest = []) /\ d_r d' = contr rest e /\ rel T' d' /\ G T w a T'.

Lemma zeros_bytes k : is_bytes (repeat 0 k). Proof. apply Forall_forall. intros x H. apply repeat_spec in H. subst. unfold byte. lia. Qed.
Lemma acc3_weak {A} (m : Dm A) (G G' : tables -> bytes -> A -> tables -> Prop) : acc3 m G -> (forall T w a T', is_bytes w -> G T w a T' -> G' T w a T') -> acc3 m G'.
Proof.
  intros H HG d s e d' a T HB Hr HT E. destruct (H d s e d' a T HB Hr HT E) as (w & rest & k & T' & E1 & K & R & HT' & HGw). exists w, rest, k, T'. repeat split; try assumption; try apply HT'.
  apply HG; [|exact HGw]. assert (B : is_bytes (s ++ repeat 0 k)) by (apply Forall_app; split; [exact HB|apply zeros_bytes]). rewrite E1 in B. apply Forall_app in B. tauto.
Qed.
Lemma acc3_ret {A} (a : A) : acc3 (dret a) (fun T w b T' => w = [] /\ b = a /\ T' = T).
Proof. intros d s e d' b T HB Hr HT E. inversion E; subst. exists [], s, 0%nat, T. rewrite app_nil_r. repeat split; auto; apply HT. Qed.
Lemma acc3_fail {A} x G : acc3 (@dfail A x) G. Proof. intros d s e d' b T HB Hr HT E. discriminate. Qed.
Lemma acc3_fuel {A} G : acc3 (fun d => (d, OutOfFuel) : dstate * res A) G. Proof. intros d s e d' b T HB Hr HT E. discriminate. Qed.
Lemma acc3_bind_if {A B} (m : Dm A) (f : A -> Dm B) G1 (G2 : A -> tables -> bytes -> B -> tables -> Prop) : acc3 m G1 -> (forall a, (exists T w T', G1 T w a T') -> acc3 (f a) (G2 a)) ->
  acc3 (dbind m f) (fun T w b T' => exists w1 w2 a T1, w = w1 ++ w2 /\ G1 T w1 a T1 /\ G2 a T1 w2 b T').
Proof.
  intros H1 H2 d s e d' b T HB Hr HT E. apply bind_ok in E. destruct E as (d1 & a & E1 & E2).
  destruct (H1 d s e d1 a T HB Hr HT E1) as (w1 & r1 & k1 & T1 & S1 & K1 & R1 & HT1 & G1').
  assert (B1 : is_bytes r1). { assert (BB : is_bytes (s ++ repeat 0 k1)) by (apply Forall_app; split; [exact HB|apply zeros_bytes]). rewrite S1 in BB. apply Forall_app in BB. tauto. }
  destruct (H2 a ltac:(eauto) d1 r1 e d' b T1 B1 R1 HT1 E2) as (w2 & r2 & k2 & T2 & S2 & K2 & R2 & HT2 & G2').
  exists (w1 ++ w2), r2, (k1 + k2)%nat, T2. split; [|split; [|split; [exact R2|split; [exact HT2|]]]].
  - rewrite repeat_app, app_assoc, S1, <- !app_assoc, S2. reflexivity.
  - destruct K2 as [->|K2]; [|right; exact K2]. destruct K1 as [->|K1]; [left; reflexivity|]. subst r1. cbn [app repeat] in S2. right. symmetry in S2. apply app_eq_nil in S2. tauto.
  - exists w1, w2, a, T1. repeat split; assumption.
Qed.
Lemma acc3_bind {A B} (m : Dm A) (f : A -> Dm B) G1 (G2 : A -> tables -> bytes -> B -> tables -> Prop) : acc3 m G1 -> (forall a, acc3 (f a) (G2 a)) ->
  acc3 (dbind m f) (fun T w b T' => exists w1 w2 a T1, w = w1 ++ w2 /\ G1 T w1 a T1 /\ G2 a T1 w2 b T').
Proof. intros H1 H2. apply acc3_bind_if; auto. Qed.
(** Steps that do not touch reader and tables. *)
Lemma acc3_same {A} (m : Dm A) : (forall d d' a, m d = (d', Ok a) -> d_r d' = d_r d /\ d_str3 d' = d_str3 d /\ d_trait3 d' = d_trait3 d) -> acc3 m (fun T w a T' => w = [] /\ T' = T).
Proof.
  intros H d s e d' b T HB Hr HT E. destruct (H _ _ _ E) as (A1 & A2 & A3). exists [], s, 0%nat, T. rewrite app_nil_r. split; [reflexivity|]. split; [left; reflexivity|]. split; [congruence|].
  split; [split; destruct HT; congruence|split; reflexivity].
Qed.
Lemma acc3_push v : acc3 (obj3_push v) (fun T w a T' => w = [] /\ T' = T). Proof. apply acc3_same. intros d d' a E. inversion E; subst. repeat split. Qed.
Lemma acc3_alloc : acc3 alloc (fun T w a T' => w = [] /\ T' = T). Proof. apply acc3_same. intros d d' a E. inversion E; subst. repeat split. Qed.
Lemma acc3_set l k v : acc3 (obj_set l k v) (fun T w a T' => w = [] /\ T' = T). Proof. apply acc3_same. intros d d' a E. inversion E; subst. repeat split. Qed.
Lemma acc3_ref v : acc3 (obj3_ref v) (fun T w a T' => w = [] /\ T' = T). Proof. apply acc3_same. intros d d' a E. unfold obj3_ref in E. destruct (_ <=? _); inversion E; subst. repeat split. Qed.

Lemma acc3_byte : acc3 read_byte (fun T w a T' => w = [a] /\ byte a /\ T' = T).
Proof.
  intros d s e d' b T HB Hr HT E. destruct (read_byte_inv _ _ _ _ _ Hr E) as (rest & -> & R). exists [b], rest, 0%nat, T. rewrite app_nil_r. split; [reflexivity|]. split; [left; reflexivity|]. split; [exact R|].
  apply Forall_cons_iff in HB. split; [|split; [reflexivity|split; [apply HB|reflexivity]]].
  unfold read_byte in E. apply bind_ok in E. destruct E as (d1 & x & E1 & E2). inversion E2; subst. unfold read_bytes in E1. destruct (read 1 (d_r d)) as [r [y|y| |]]; try discriminate. destruct (len y =? 1); inversion E1; subst. exact HT.
Qed.
Lemma acc3_u29 : acc3 read_u29 (fun T w a T' => u29 a w /\ T' = T).
Proof.
  assert (X : forall x, byte x -> Z.land x 128 = 0 \/ Z.land x 128 = 128 /\ 128 <= x).
  { intros x Hx. rewrite land128 by exact Hx. destruct (x <? 128) eqn:E; [left; reflexivity|right; lia]. }
  assert (Y : forall x, byte x -> Z.land x 128 =? 0 = (x <? 128)).
  { intros x Hx. rewrite land128 by exact Hx. destruct (x <? 128); reflexivity. }
  unfold read_u29. eapply acc3_weak.
  - eapply acc3_bind; [apply acc3_byte|]. intros b1. cbv beta.
    instantiate (1 := fun b1 T w a T' => byte b1 -> u29 a (b1 :: w) /\ T' = T). cbv beta.
    assert (Z1 : forall b1, acc3 (if Z.land b1 128 =? 0 then dret (u32 (Z.shiftl 0 7 + Z.land b1 127)) else
       d* b2 := read_byte in let r2 := u32 (Z.shiftl (u32 (Z.shiftl 0 7 + Z.land b1 127)) 7 + Z.land b2 127) in
       if Z.land b2 128 =? 0 then dret r2 else d* b3 := read_byte in let r3 := u32 (Z.shiftl r2 7 + Z.land b3 127) in
       if Z.land b3 128 =? 0 then dret r3 else d* b4 := read_byte in dret (u32 (Z.shiftl r3 8 + b4))) (fun T w a T' => byte b1 -> u29 a (b1 :: w) /\ T' = T)).
    { clear b1. intros b1. destruct (Z.land b1 128 =? 0) eqn:E1.
      - eapply acc3_weak; [apply acc3_ret|]. cbv beta. intros T w a T' _ (-> & -> & ->) B1. rewrite Y in E1 by exact B1. split; [|reflexivity]. unfold byte in B1.
        rewrite land127, shiftl_mul by lia. rewrite u32_id by lia. replace (0 * 2 ^ 7 + b1 mod 128) with b1 by lia. constructor; lia.
      - eapply acc3_weak.
        + eapply acc3_bind; [apply acc3_byte|]. intros b2. cbv beta zeta.
          instantiate (1 := fun b2 T w a T' => byte b1 -> byte b2 -> u29 a (b1 :: b2 :: w) /\ T' = T). cbv beta.
          destruct (Z.land b2 128 =? 0) eqn:E2.
          * eapply acc3_weak; [apply acc3_ret|]. cbv beta. intros T w a T' _ (-> & -> & ->) B1 B2. rewrite Y in E1, E2 by assumption. split; [|reflexivity]. unfold byte in B1, B2.
            rewrite !land127, !shiftl_mul by lia. change (2 ^ 7) with 128. pose proof (u29_2 (b1 - 128) b2 ltac:(lia) ltac:(lia)) as P.
            replace (128 + (b1 - 128)) with b1 in P by lia. replace ((b1 - 128) * 128 + b2) with (u32 (u32 (0 * 128 + b1 mod 128) * 128 + b2 mod 128)) in P by (unfold u32; lia). exact P.
          * eapply acc3_weak.
            -- eapply acc3_bind; [apply acc3_byte|]. intros b3. cbv beta zeta.
               instantiate (1 := fun b3 T w a T' => byte b1 -> byte b2 -> byte b3 -> u29 a (b1 :: b2 :: b3 :: w) /\ T' = T). cbv beta.
               destruct (Z.land b3 128 =? 0) eqn:E3.
               ++ eapply acc3_weak; [apply acc3_ret|]. cbv beta. intros T w a T' _ (-> & -> & ->) B1 B2 B3. rewrite Y in E1, E2, E3 by assumption. split; [|reflexivity]. unfold byte in B1, B2, B3.
                  rewrite !land127, !shiftl_mul by lia. change (2 ^ 7) with 128. pose proof (u29_3 (b1 - 128) (b2 - 128) b3 ltac:(lia) ltac:(lia) ltac:(lia)) as P.
                  replace (128 + (b1 - 128)) with b1 in P by lia. replace (128 + (b2 - 128)) with b2 in P by lia.
                  replace (((b1 - 128) * 128 + (b2 - 128)) * 128 + b3) with (u32 (u32 (u32 (0 * 128 + b1 mod 128) * 128 + b2 mod 128) * 128 + b3 mod 128)) in P by (unfold u32; lia). exact P.
               ++ eapply acc3_weak; [eapply acc3_bind; [apply acc3_byte|intros b4; apply acc3_ret]|]. cbv beta.
                  intros T w a T' _ (w1 & w2 & b4 & T1 & -> & (-> & B4 & ->) & (-> & -> & ->)) B1 B2 B3. rewrite Y in E1, E2, E3 by assumption. split; [|reflexivity]. unfold byte in B1, B2, B3, B4.
                  rewrite !land127, !shiftl_mul by lia. change (2 ^ 7) with 128. change (2 ^ 8) with 256. pose proof (u29_4 (b1 - 128) (b2 - 128) (b3 - 128) b4 ltac:(lia) ltac:(lia) ltac:(lia) ltac:(lia)) as P.
                  replace (128 + (b1 - 128)) with b1 in P by lia. replace (128 + (b2 - 128)) with b2 in P by lia. replace (128 + (b3 - 128)) with b3 in P by lia. cbn [app].
                  replace ((((b1 - 128) * 128 + (b2 - 128)) * 128 + (b3 - 128)) * 256 + b4) with (u32 (u32 (u32 (u32 (0 * 128 + b1 mod 128) * 128 + b2 mod 128) * 128 + b3 mod 128) * 256 + b4)) in P by (unfold u32; lia). exact P.
            -- cbv beta. intros T w a T' _ (w1 & w2 & b3 & T1 & -> & (-> & B3 & ->) & P) B1 B2. exact (P B1 B2 B3).
        + cbv beta. intros T w a T' _ (w1 & w2 & b2 & T1 & -> & (-> & B2 & ->) & P) B1. exact (P B1 B2). }
    apply Z1.
  - cbv beta. intros T w a T' _ (w1 & w2 & b1 & T1 & -> & (-> & B1 & ->) & P). exact (P B1).
Qed.
Lemma acc3_du29 : acc3 decode_u29 (fun T w a T' => T' = T /\ exists k, 0 <= k /\ ((a = (true, k) /\ u29 (2 * k) w) \/ (a = (false, k) /\ u29 (2 * k + 1) w))).
Proof.
  unfold decode_u29. eapply acc3_weak; [eapply acc3_bind; [apply acc3_u29|intros u; apply acc3_ret]|]. cbv beta.
  intros T w a T' _ (w1 & w2 & u & T1 & -> & (Hu & ->) & (-> & -> & ->)). split; [reflexivity|]. rewrite app_nil_r. pose proof (u29_range _ _ Hu).
  change 1 with (2 ^ 1 - 1) at 1 3. rewrite land_ones, shiftr_div by lia. change (2 ^ 1) with 2. exists (u / 2). split; [lia|].
  destruct (Z.eqb_spec (u mod 2) 0) as [E|E]; [left|right]; (split; [reflexivity|]).
  - replace (2 * (u / 2)) with u by lia. exact Hu.
  - replace (2 * (u / 2) + 1) with u by lia. exact Hu.
Qed.

(** Reads of a counted number of bytes. *)
Lemma acc3_bytes n : 0 < n -> acc3 (read_bytes n) (fun T w a T' => w = a /\ len a = n /\ T' = T).
Proof.
  intros Hn d s e d' b T HB Hr HT E. destruct (read_bytes_inv _ _ _ _ _ _ Hr E) as (rest & -> & R & L & _). exists b, rest, 0%nat, T. rewrite app_nil_r. split; [reflexivity|]. split; [left; reflexivity|]. split; [exact R|].
  split; [|split; [reflexivity|split; [exact L|reflexivity]]].
  unfold read_bytes in E. destruct (read n (d_r d)) as [r [y|y| |]]; try discriminate. destruct (len y =? n); inversion E; subst. exact HT.
Qed.
Lemma acc3_be8 : acc3 (read_be 8) (fun T w a T' => w = be64 a /\ 0 <= a < 2 ^ 64 /\ T' = T).
Proof.
  intros d s e d' b T HB Hr HT E. destruct (read_be_inv 8 _ _ _ _ _ ltac:(lia) Hr E) as (a & rest & -> & L & -> & R). exists a, rest, 0%nat, T. rewrite app_nil_r. split; [reflexivity|]. split; [left; reflexivity|]. split; [exact R|].
  apply Forall_app in HB. destruct (be64_inv a (proj1 HB) L) as [Ea Ra]. split; [|split; [exact Ea|split; [exact Ra|reflexivity]]].
  unfold read_be in E. destruct (read_full 8 (d_r d)) as [r [y|y| |]]; try discriminate. inversion E; subst. exact HT.
Qed.
Lemma read_ok n s e a : 0 < n -> snd (read n (contr s e)) = Ok a -> len a = n \/ a = s /\ len s < n /\ fst (read n (contr s e)) = contr [] e.
Proof.
  intros Hn. unfold read. destruct s as [|x s]; cbn [contr r_chunks r_end r_with].
  - destruct (Z.eqb_spec n 0); [lia|]. cbn [andb]. discriminate.
  - destruct (Z.eqb_spec n 0); [lia|]. destruct (Z.leb_spec (len (x :: s)) n) as [L|L]; cbn [snd fst]; intros E; inversion E; subst.
    + destruct (Z.eq_dec (len (x :: s)) n); [left; assumption|right]. split; [reflexivity|]. split; [lia|reflexivity].
    + left. unfold take, len in *. rewrite firstn_length. lia.
Qed.
Lemma acc3_into n : 0 < n -> acc3 (read_into n) (fun T w a T' => w = a /\ len a = n /\ T' = T).
Proof.
  intros Hn d s e d' b T HB Hr HT E. unfold read_into in E. rewrite Hr in E. destruct (read_split n s e) as (a & rest & E1 & R & H). pose proof (read_ok n s e) as HO.
  destruct (read n (contr s e)) as [r [y|y| |]]; try discriminate. cbn [fst snd] in *. inversion E; subst d' b. destruct (H y eq_refl) as [-> _].
  destruct (HO a Hn eq_refl) as [L|(-> & L & R')].
  - rewrite L, Z.sub_diag. cbn [repeat Z.to_nat]. rewrite app_nil_r. exists a, rest, 0%nat, T. rewrite app_nil_r. split; [exact E1|]. split; [left; reflexivity|]. split; [exact R|]. split; [exact HT|]. repeat split. exact L.
  - exists (s ++ repeat 0 (Z.to_nat (n - len s))), [], (Z.to_nat (n - len s)), T. rewrite app_nil_r. split; [reflexivity|]. split; [right; reflexivity|]. split; [exact R'|]. split; [exact HT|].
    split; [reflexivity|]. split; [|reflexivity]. unfold len in *. rewrite app_length, repeat_length. lia.
Qed.
Lemma nth_error_len {A} (l : list A) v d : 0 <= v -> (len l <=? v) = false -> nth_error l (Z.to_nat v) = Some (nth (Z.to_nat v) l d).
Proof. intros H0 H. apply nth_error_nth'. unfold len in H. lia. Qed.
Lemma acc3_string : acc3 decode_string3 (fun T w a T' => exists st, utf8vr (t_strings T) w a st /\ T' = with_strings st T).
Proof.
  unfold decode_string3. eapply acc3_weak.
  - eapply acc3_bind; [apply acc3_du29|]. intros [is_ref v]. cbv beta iota.
    instantiate (1 := fun p T w a T' => 0 <= snd p -> exists st, T' = with_strings st T /\ forall b,
      (if fst p then u29 (2 * snd p) b else u29 (2 * snd p + 1) b) -> utf8vr (t_strings T) (b ++ w) a st). cbn [fst snd].
    destruct is_ref.
    + intros d s e d' a T HB Hr HT E. destruct (len (d_str3 d) <=? v) eqn:EL; [discriminate|]. inversion E; subst d' a. exists [], s, 0%nat, T. rewrite app_nil_r. split; [reflexivity|]. split; [left; reflexivity|]. split; [exact Hr|]. split; [exact HT|].
      intros H0. exists (t_strings T). split; [destruct T; reflexivity|]. intros b Hb. rewrite app_nil_r. destruct HT as [HT _]. rewrite HT in *. apply vr_ref with (i := Z.to_nat v); [rewrite Z2Nat.id by lia; exact Hb|]. apply nth_error_len; assumption.
    + destruct (Z.eqb_spec v 0) as [->|Hv].
      * eapply acc3_weak; [apply acc3_ret|]. cbv beta. intros T w a T' _ (-> & -> & ->) _. exists (t_strings T). split; [destruct T; reflexivity|]. intros b Hb. rewrite app_nil_r. apply vr_empty. exact Hb.
      * destruct (Z_lt_le_dec 0 v) as [Hp|Hn].
        2:{ intros d s e d' a T HB Hr HT E. exfalso. apply bind_ok in E. destruct E as (d1 & x & E1 & _). destruct (read_bytes_inv _ _ _ _ _ _ Hr E1) as (? & _ & _ & L & _). pose proof (len_nonneg x). lia. }
        intros d s e d' a T HB Hr HT E. apply bind_ok in E. destruct E as (d1 & x & E1 & E2). inversion E2; subst d' a.
        destruct (acc3_bytes v Hp d s e d1 x T HB Hr HT E1) as (w & rest & k & T' & S1 & K & R & HT' & -> & L & ->). exists x, rest, k, (with_strings (t_strings T ++ [x]) T). split; [exact S1|]. split; [exact K|]. split; [exact R|]. split.
        { destruct HT' as [H1 H2]. split; cbn; congruence. }
        intros _. exists (t_strings T ++ [x]). split; [reflexivity|]. intros b Hb. apply vr_lit; [intros ->; unfold len in L; cbn in L; lia|]. rewrite L. exact Hb.
  - cbv beta. intros T w a T' _ (w1 & w2 & [r v] & T1 & -> & (-> & k & Hk & HH) & P). cbn [fst snd] in P.
    destruct HH as [[E1 Hu]|[E1 Hu]]; inversion E1; subst; destruct (P Hk) as (st & -> & HP); exists st; (split; [apply HP, Hu|reflexivity]).
Qed.
Lemma loop_n_O {A} (body : Dm A) f : loop_n body f 0 = dret [].
Proof. destruct f; reflexivity. Qed.
Lemma acc3_strings f : forall n, 0 <= n -> acc3 (loop_n decode_string3 f n) (fun T w a T' => len a = n /\ exists st, utf8vrs (t_strings T) w a st /\ T' = with_strings st T).
Proof.
  induction f as [|f IH]; intros n Hn; cbn [loop_n]; (destruct (Z.leb_spec n 0); [eapply acc3_weak; [apply acc3_ret|]; cbv beta; intros T w a T' _ (-> & -> & ->); split; [unfold len; cbn; lia|]; exists (t_strings T); split; [constructor|destruct T; reflexivity]|]).
  - apply acc3_fuel.
  - eapply acc3_weak; [eapply acc3_bind; [apply acc3_string|]; intros x; eapply acc3_bind; [apply IH; lia|]; intros xs; apply acc3_ret|]. cbv beta.
    intros T w a T' _ (w1 & w2 & x & T1 & -> & (st & H1 & ->) & (w3 & w4 & xs & T2 & -> & (L & st2 & H2 & ->) & (-> & -> & ->))). rewrite app_nil_r. split; [rewrite len_cons; lia|].
    exists st2. split; [econstructor; eassumption|reflexivity].
Qed.
Lemma not_bit_const v i : 1 < i -> i = 2 \/ i = 4 -> Z.land v i =? 1 = false.
Proof.
  intros _ H. apply Z.eqb_neq. intros E. apply (f_equal (fun z => Z.testbit z 0)) in E. rewrite Z.land_spec in E. destruct H as [->| ->]; cbn in E; rewrite andb_false_r in E; discriminate.
Qed.
Lemma acc3_trait f v : 0 <= v -> acc3 (decode_trait f v) (fun T w t T' => exists c, t = plain c /\ forall b, u29 (2 * v + 1) b -> traits3 true T (b ++ w) c T').
Proof.
  intros Hv. unfold decode_trait. change 1 with (2 ^ 1 - 1) at 1. rewrite land_ones by lia. change (2 ^ 1) with 2. rewrite !shiftr_div by lia. change (2 ^ 1) with 2. change (2 ^ 3) with 8.
  destruct (Z.eqb_spec (v mod 2) 0) as [Ev|Ev].
  - intros d s e d' a T HB Hr HT E. destruct (len (d_trait3 d) <=? v / 2) eqn:EL; [discriminate|]. inversion E; subst d' a. exists [], s, 0%nat, T. rewrite app_nil_r. split; [reflexivity|]. split; [left; reflexivity|]. split; [exact Hr|]. split; [exact HT|].
    destruct HT as [_ HT]. rewrite HT in *. change (mkTrait [] false false []) with (plain ([], [])). rewrite map_nth. eexists. split; [reflexivity|]. intros b Hb. rewrite app_nil_r.
    apply tr_ref with (i := Z.to_nat (v / 2)); [rewrite Z2Nat.id by lia; replace (4 * (v / 2) + 1) with (2 * v + 1) by lia; exact Hb|].
    apply nth_error_len; [lia|]. unfold len in *. rewrite map_length in EL. exact EL.
  - rewrite !not_bit_const by lia. cbv zeta.
    intros d s e d' a T HB Hr HT E. apply bind_ok in E. destruct E as (d1 & ty & E1 & E2). apply bind_ok in E2. destruct E2 as (d2 & props & E2 & E3). inversion E3; subst d' a. clear E3.
    destruct (acc3_bind decode_string3 (fun ty => d* props := loop_n decode_string3 f (v / 8) in dret (ty, props)) _ (fun ty T w a T' => exists props st, a = (ty, props) /\ len props = v / 8 /\ utf8vrs (t_strings T) w props st /\ T' = with_strings st T) acc3_string) with (d := d) (s := s) (e := e) (d' := d2) (a := (ty, props)) (T := T) as (w & rest & k & T' & S1 & K & R & HT' & (w1 & w2 & ty' & T1 & -> & (st1 & HS & ->) & (props' & st2 & E3 & L & HSS & ->))); try assumption.
    { intros ty'. eapply acc3_weak; [eapply acc3_bind; [apply acc3_strings; lia|intros ps; apply acc3_ret]|]. cbv beta. intros T0 w a T' _ (w1 & w2 & ps & T1 & -> & (L & st & HS & ->) & (-> & -> & ->)). rewrite app_nil_r. exists ps, st. repeat split; assumption. }
    { unfold dbind. rewrite E1. cbv beta iota. rewrite E2. reflexivity. }
    inversion E3; subst ty' props'. exists (w1 ++ w2), rest, k, (mkTables st2 (t_classes T ++ [(ty, props)])). split; [exact S1|]. split; [exact K|]. split; [exact R|]. split.
    { destruct HT' as [H1 H2]. split; cbn in *; [exact H1|]. rewrite map_app, H2. reflexivity. }
    exists (ty, props). split; [reflexivity|]. intros b Hb. eapply tr_new with (flags := (v / 2) mod 4); [right; split; [reflexivity|lia]| |exact HS|exact HSS].
    rewrite L. replace (16 * (v / 8) + 4 * ((v / 2) mod 4) + 3) with (2 * v + 1) by lia. exact Hb.
Qed.

(** The recursive part. *)
Definition gval (T : tables) (w : bytes) (v : value) (T' : tables) : Prop := exists p, value3 true T w p T'.
Section Rec.
  Context (dec : Dm value) (Hdec : acc3 dec gval).
  Lemma acc3_values f : forall n, 0 <= n -> acc3 (loop_n dec f n) (fun T w a T' => exists ps, len ps = n /\ values3 true T w ps T').
  Proof.
    induction f as [|f IH]; intros n Hn; cbn [loop_n]; (destruct (Z.leb_spec n 0); [eapply acc3_weak; [apply acc3_ret|]; cbv beta; intros T w a T' _ (-> & -> & ->); exists []; split; [unfold len; cbn; lia|constructor]|]).
    - apply acc3_fuel.
    - eapply acc3_weak; [eapply acc3_bind; [exact Hdec|]; intros x; eapply acc3_bind; [apply IH; lia|]; intros xs; apply acc3_ret|]. cbv beta.
      intros T w a T' _ (w1 & w2 & x & T1 & -> & (p & H1) & (w3 & w4 & xs & T2 & -> & (ps & L & H2) & (-> & -> & ->))). rewrite app_nil_r. exists (p :: ps). split; [rewrite len_cons; lia|]. econstructor; eassumption.
  Qed.
  Lemma acc3_props loc keys : acc3 (props_loop dec loc keys) (fun T w a T' => exists ps, length ps = length keys /\ values3 true T w ps T').
  Proof.
    induction keys as [|k keys IH]; cbn [props_loop].
    - eapply acc3_weak; [apply acc3_ret|]. cbv beta. intros T w a T' _ (-> & -> & ->). exists []. split; [reflexivity|constructor].
    - eapply acc3_weak; [eapply acc3_bind; [exact Hdec|]; intros x; eapply acc3_bind; [apply acc3_set|]; intros u; exact IH|]. cbv beta.
      intros T w a T' _ (w1 & w2 & x & T1 & -> & (p & H1) & (w3 & w4 & xs & T2 & -> & (-> & ->) & (ps & L & H2))). exists (p :: ps). split; [cbn; congruence|]. cbn [app]. econstructor; eassumption.
  Qed.
  Lemma acc3_assoc f : forall loc key, acc3 (assoc_loop dec f loc key) (fun T w a T' => forall T0 bk st, utf8vr (t_strings T0) bk key st -> T = with_strings st T0 -> exists fs, assoc3 true T0 (bk ++ w) fs T').
  Proof.
    induction f as [|f IH]; intros loc key; (destruct key as [|x key]; cbn [assoc_loop]; [eapply acc3_weak; [apply acc3_ret|]; cbv beta; intros T w a T' _ (-> & -> & ->) T0 bk st H ->; rewrite app_nil_r; exists []; constructor; exact H|]).
    - apply acc3_fuel.
    - eapply acc3_weak; [eapply acc3_bind; [exact Hdec|]; intros v; eapply acc3_bind; [apply acc3_set|]; intros u; eapply acc3_bind; [apply acc3_string|]; intros k; apply IH|]. cbv beta.
      intros T w a T' _ (w1 & w2 & v & T1 & -> & (p & H1) & (w3 & w4 & u & T2 & -> & (-> & ->) & (w5 & w6 & k & T3 & -> & (st' & H2 & ->) & H3))) T0 bk st H ->.
      destruct (H3 T1 w5 st' H2 eq_refl) as [fs HF]. exists ((x :: key, p) :: fs). cbn [app]. eapply as3_cons; [exact H|discriminate|exact H1|exact HF].
  Qed.
  Lemma acc3_refs m T w1 k p : 7 <= m <= 12 -> u29 (2 * k) w1 -> value3 true T (m :: w1) p T.
  Proof. intros H H1. eapply v3_reference; [reflexivity|exact H|exact H1]. Qed.
End Rec.

(** What follows a marker. *)
Definition after (m : Z) (T : tables) (w : bytes) (v : value) (T' : tables) : Prop := exists p, value3 true T (m :: w) p T'.
Lemma acc3_du29_then {B} (f : bool * Z -> Dm B) m (G : tables -> bytes -> B -> tables -> Prop) :
  (forall k, 0 <= k -> acc3 (f (true, k)) (fun T w b T' => forall bk, u29 (2 * k) bk -> G T (bk ++ w) b T')) ->
  (forall k, 0 <= k -> acc3 (f (false, k)) (fun T w b T' => forall bk, u29 (2 * k + 1) bk -> G T (bk ++ w) b T')) ->
  m = (d* p := decode_u29 in f p) -> acc3 m G.
Proof.
  intros H1 H2 ->. intros d s e d' a T HB Hr HT E. apply bind_ok in E. destruct E as (d1 & [r k] & E1 & E2).
  destruct (acc3_du29 d s e d1 _ T HB Hr HT E1) as (w1 & r1 & k1 & T1 & S1 & K1 & R1 & HT1 & (-> & k' & Hk & HH)).
  assert (B1 : is_bytes r1). { assert (BB : is_bytes (s ++ repeat 0 k1)) by (apply Forall_app; split; [exact HB|apply zeros_bytes]). rewrite S1 in BB. apply Forall_app in BB. tauto. }
  assert (X : exists w2 r2 k2 T2, r1 ++ repeat 0 k2 = w2 ++ r2 /\ (k2 = 0%nat \/ r2 = []) /\ d_r d' = contr r2 e /\ rel T2 d' /\ G T (w1 ++ w2) a T2).
  { destruct HH as [[E3 Hu]|[E3 Hu]]; inversion E3; subst r k'.
    - destruct (H1 k Hk d1 r1 e d' a T B1 R1 HT1 E2) as (w2 & r2 & k2 & T2 & S2 & K2 & R2 & HT2 & G2). exists w2, r2, k2, T2. repeat split; try assumption; try apply HT2. apply G2, Hu.
    - destruct (H2 k Hk d1 r1 e d' a T B1 R1 HT1 E2) as (w2 & r2 & k2 & T2 & S2 & K2 & R2 & HT2 & G2). exists w2, r2, k2, T2. repeat split; try assumption; try apply HT2. apply G2, Hu. }
  destruct X as (w2 & r2 & k2 & T2 & S2 & K2 & R2 & HT2 & G2).
  exists (w1 ++ w2), r2, (k1 + k2)%nat, T2. split; [|split; [|split; [exact R2|split; [exact HT2|exact G2]]]].
  - rewrite repeat_app, app_assoc, S1, <- !app_assoc, S2. reflexivity.
  - destruct K2 as [->|K2]; [|right; exact K2]. destruct K1 as [->|K1]; [left; reflexivity|]. subst r1. cbn [app repeat] in S2. right. symmetry in S2. apply app_eq_nil in S2. tauto.
Qed.
Lemma acc3_objref m k (g : value -> Dm value) : 7 <= m <= 12 -> (forall x, g x = dret x \/ g x = dfail EOther) ->
  acc3 (d* x := obj3_ref k in g x) (fun T w b T' => forall bk, u29 (2 * k) bk -> after m T (bk ++ w) b T').
Proof.
  intros Hm Hg. eapply acc3_weak.
  - eapply acc3_bind; [apply acc3_ref|]. intros x. instantiate (1 := fun x T w a T' => w = [] /\ T' = T). cbv beta. destruct (Hg x) as [->| ->]; [|apply acc3_fail]. eapply acc3_weak; [apply acc3_ret|]. cbv beta. intros T w a T' _ (-> & -> & ->). split; reflexivity.
  - cbv beta. intros T w a T' _ (w1 & w2 & x & T1 & -> & (-> & ->) & (-> & ->)) bk Hb. exists PNil. cbn [app]. rewrite app_nil_r. eapply acc3_refs; eassumption.
Qed.
Lemma acc3_xml m : m = 7 \/ m = 11 -> acc3 decode_xmldoc3 (after m).
Proof.
  intros Hm. eapply acc3_du29_then; [| |reflexivity]; intros k Hk; cbv beta iota.
  - apply acc3_objref; [lia|]. intros []; auto.
  - destruct (Z.eqb_spec k 0) as [->|Hk0].
    + eapply acc3_weak; [apply acc3_ret|]. cbv beta. intros T w a T' _ (-> & -> & ->) bk Hb. exists (PStr []). apply v3_xml; [exact Hm|exact Hb].
    + eapply acc3_weak; [eapply acc3_bind; [apply acc3_into; lia|]; intros x; eapply acc3_bind; [apply acc3_push|]; intros u; apply acc3_ret|]. cbv beta.
      intros T w a T' _ (w1 & w2 & x & T1 & -> & (-> & L & ->) & (w3 & w4 & u & T2 & -> & (-> & ->) & (-> & -> & ->))) bk Hb. cbn [app]. rewrite app_nil_r. exists (PStr x). apply v3_xml; [exact Hm|]. rewrite L. exact Hb.
Qed.
Lemma acc3_bytearray : acc3 decode_bytearray3 (after 12).
Proof.
  eapply acc3_du29_then; [| |reflexivity]; intros k Hk; cbv beta iota.
  - apply acc3_objref; [lia|]. intros []; auto.
  - destruct (Z.eqb_spec k 0) as [->|Hk0].
    + eapply acc3_weak; [apply acc3_ret|]. cbv beta. intros T w a T' _ (-> & -> & ->) bk Hb. exists (PBytes []). apply v3_bytes. exact Hb.
    + eapply acc3_weak; [eapply acc3_bind; [apply acc3_into; lia|]; intros x; eapply acc3_bind; [apply acc3_push|]; intros u; apply acc3_ret|]. cbv beta.
      intros T w a T' _ (w1 & w2 & x & T1 & -> & (-> & L & ->) & (w3 & w4 & u & T2 & -> & (-> & ->) & (-> & -> & ->))) bk Hb. cbn [app]. rewrite app_nil_r. exists (PBytes x). apply v3_bytes. rewrite L. exact Hb.
Qed.
Lemma acc3_date : acc3 decode_date3 (after 8).
Proof.
  eapply acc3_du29_then; [| |reflexivity]; intros k Hk; cbv beta iota.
  - apply acc3_objref; [lia|]. intros []; auto.
  - eapply acc3_weak.
    + eapply acc3_bind; [|intros x; cbv zeta; eapply acc3_bind; [apply acc3_push|]; intros u; apply acc3_ret].
      instantiate (1 := fun T w a T' => w = be64 a /\ 0 <= a < 2 ^ 64 /\ T' = T). intros d s e d' a T HB Hr HT E. apply (acc3_be8 d s e d' a T HB Hr HT). destruct (read_be 8 d) as [d1 [y|y| |]]; try discriminate. exact E.
    + cbv beta. intros T w a T' _ (w1 & w2 & x & T1 & -> & (-> & Hx & ->) & (w3 & w4 & u & T2 & -> & (-> & ->) & (-> & -> & ->))) bk Hb. cbn [app]. rewrite app_nil_r. eexists. eapply v3_date; [exact Hb|exact Hx].
Qed.
Lemma acc3_array dec f : acc3 dec gval -> acc3 (decode_array3 dec f) (after 9).
Proof.
  intros Hdec. eapply acc3_du29_then; [| |reflexivity]; intros k Hk; cbv beta iota.
  - apply acc3_objref; [lia|]. intros []; auto.
  - eapply acc3_weak; [eapply acc3_bind; [apply acc3_string|]; intros key; eapply acc3_bind; [apply acc3_push|]; intros u; eapply acc3_bind; [apply acc3_alloc|]; intros loc; eapply acc3_bind; [apply acc3_assoc, Hdec|]; intros u2; eapply acc3_bind; [apply acc3_values; [exact Hdec|exact Hk]|]; intros vs; apply acc3_ret|]. cbv beta.
    intros T w a T' _ (w1 & w2 & key & T1 & -> & (st & HS & ->) & (w3 & w4 & u & T2 & -> & (-> & ->) & (w5 & w6 & loc & T3 & -> & (-> & ->) & (w7 & w8 & u2 & T4 & -> & HA & (w9 & w10 & vs & T5 & -> & (ps & L & HV) & (-> & -> & ->)))))) bk Hb.
    destruct (HA T w1 st HS eq_refl) as [fs HF]. cbn [app]. rewrite app_nil_r. eexists. rewrite (app_assoc w1). eapply v3_array; [rewrite L; exact Hb|exact HF|exact HV].
Qed.
Lemma acc3_object dec f : acc3 dec gval -> acc3 (decode_object3 dec f) (after 10).
Proof.
  intros Hdec. eapply acc3_du29_then; [| |reflexivity]; intros k Hk; cbv beta iota.
  - eapply acc3_weak; [apply acc3_ref|]. cbv beta. intros T w a T' _ (-> & ->) bk Hb. exists PNil. rewrite app_nil_r. eapply acc3_refs; [lia|exact Hb].
  - eapply acc3_weak.
    + eapply acc3_bind_if with (G2 := fun t T w _ T' => exists ps, length ps = length (t_props t) /\ values3 true T w ps T'); [apply acc3_trait, Hk|]. intros t (T0 & w0 & T0' & c & -> & _). cbn [plain t_ext t_dyn t_props].
      eapply acc3_weak; [eapply acc3_bind; [apply acc3_push|]; intros u; eapply acc3_bind; [apply acc3_alloc|]; intros loc; eapply acc3_bind; [apply acc3_props, Hdec|]; intros u2; eapply acc3_bind; [apply acc3_ret|]; intros u3; apply acc3_ret|]. cbv beta.
      intros T w a T' _ (w3 & w4 & u & T2 & -> & (-> & ->) & (w5 & w6 & loc & T3 & -> & (-> & ->) & (w7 & w8 & u2 & T4 & -> & (ps & L & HV) & (w9 & w10 & u3 & T5 & -> & (-> & -> & ->) & (-> & -> & ->))))).
      exists ps. cbn [app]. rewrite !app_nil_r. split; assumption.
    + cbv beta. intros T w a T' _ (w1 & w2 & t & T1 & -> & (c & -> & HT) & (ps & L & HV)) bk Hb.
      cbn [plain t_props] in L. destruct c as [ty props]. cbn [snd] in L. eexists. rewrite app_assoc. eapply v3_object; [apply HT, Hb|exact HV|exact L].
Qed.

Theorem dec3_acc f : acc3 (dec3 f) gval.
Proof.
  induction f as [|f IH]; cbn [dec3]; [apply acc3_fuel|].
  eapply acc3_weak.
  - eapply acc3_bind; [apply acc3_byte|]. intros m. instantiate (1 := after). cbv beta.
    assert (C : forall p a, (forall T, value3 true T [m] p T) -> acc3 (dret a) (after m)).
    { intros p a H. eapply acc3_weak; [apply acc3_ret|]. cbv beta. intros T w b T' _ (-> & -> & ->). exists p. apply H. }
    destruct (Z.eqb_spec m 0) as [->|_]; [apply C with PNil; intros; constructor|]. destruct (Z.eqb_spec m 1) as [->|_]; [apply C with PNil; intros; constructor|]. cbn [orb].
    destruct (Z.eqb_spec m 2) as [->|_]; [apply C with (PBool false); intros; constructor|]. destruct (Z.eqb_spec m 3) as [->|_]; [apply C with (PBool true); intros; constructor|].
    destruct (Z.eqb_spec m 4) as [->|_].
    { eapply acc3_weak; [eapply acc3_bind; [apply acc3_u29|]; intros u; apply acc3_ret|]. cbv beta. intros T w a T' _ (w1 & w2 & u & T1 & -> & (Hu & ->) & (-> & -> & ->)). rewrite app_nil_r. eexists. apply v3_integer; [right; reflexivity|exact Hu]. }
    destruct (Z.eqb_spec m 5) as [->|_].
    { eapply acc3_weak; [eapply acc3_bind; [apply acc3_be8|]; intros u; apply acc3_ret|]. cbv beta. intros T w a T' _ (w1 & w2 & u & T1 & -> & (-> & Hu & ->) & (-> & -> & ->)). rewrite app_nil_r. eexists. apply v3_double. exact Hu. }
    destruct (Z.eqb_spec m 6) as [->|_].
    { eapply acc3_weak; [eapply acc3_bind; [apply acc3_string|]; intros u; apply acc3_ret|]. cbv beta. intros T w a T' _ (w1 & w2 & u & T1 & -> & (st & Hu & ->) & (-> & -> & ->)). rewrite app_nil_r. eexists. apply v3_string. exact Hu. }
    destruct (Z.eqb_spec m 7) as [->|_]; [apply acc3_xml; auto|]. destruct (Z.eqb_spec m 8) as [->|_]; [apply acc3_date|]. destruct (Z.eqb_spec m 9) as [->|_]; [apply acc3_array, IH|].
    destruct (Z.eqb_spec m 10) as [->|_]; [apply acc3_object, IH|]. destruct (Z.eqb_spec m 11) as [->|_]; [apply acc3_xml; auto|]. destruct (Z.eqb_spec m 12) as [->|_]; [apply acc3_bytearray|]. apply acc3_fail.
  - cbv beta. intros T w a T' _ (w1 & w2 & m & T1 & -> & (-> & _ & ->) & H). exact H.
Qed.
