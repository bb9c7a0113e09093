(** AMF3: what Decode accepts is a layout of Spec/Amf3Ref.v, in the reading of the library. *)
From Verif Require Import Base.Go Base.GoFacts Base.IO Base.Float64 Proofs.IOFacts
  Model.AmfTypes Model.Amf3 Model.Amf0 Spec.Amf Spec.AmfDoc Spec.Amf3Doc Spec.Amf3Ref Proofs.AmfFacts Proofs.AmfContr Proofs.Amf0Acc Proofs.Amf3Enc Proofs.Amf3RT Proofs.Amf3Doc Proofs.Amf3Acc Proofs.Amf3Ref.
Local Ltac Zify.zify_post_hook ::= Z.div_mod_to_equations.

(** * Steps that consume all they return and leave the places alone *)
Definition acs {A} (m : Dm A) (G : tables -> bytes -> A -> tables -> Prop) : Prop := forall d s e d' a T, is_bytes s -> d_r d = contr s e -> rel T d -> m d = (d', Ok a) ->
  exists w rest T', s = w ++ rest /\ d_r d' = contr rest e /\ rel T' d' /\ d_obj3 d' = d_obj3 d /\ G T w a T'.
Lemma acs_weak {A} (m : Dm A) (G G' : tables -> bytes -> A -> tables -> Prop) : acs m G -> (forall T w a T', is_bytes w -> G T w a T' -> G' T w a T') -> acs m G'.
Proof.
  intros H HG d s e d' a T HB Hr HT E. destruct (H d s e d' a T HB Hr HT E) as (w & rest & T' & -> & R & HT' & HO & HGw). exists w, rest, T'. split; [reflexivity|]. split; [exact R|]. split; [exact HT'|]. split; [exact HO|].
  apply HG; [|exact HGw]. apply Forall_app in HB. tauto.
Qed.
Lemma acs_ret {A} (a : A) : acs (dret a) (fun T w b T' => w = [] /\ b = a /\ T' = T).
Proof. intros d s e d' b T HB Hr HT E. inversion E; subst. exists [], s, T. split; [reflexivity|]. split; [exact Hr|]. split; [exact HT|]. split; [reflexivity|]. repeat split. Qed.
Lemma acs_fuel {A} G : acs (fun d => (d, OutOfFuel) : dstate * res A) G. Proof. intros d s e d' b T HB Hr HT E. discriminate. Qed.
Lemma acs_bind {A B} (m : Dm A) (f : A -> Dm B) G1 (G2 : A -> tables -> bytes -> B -> tables -> Prop) : acs m G1 -> (forall a, acs (f a) (G2 a)) ->
  acs (dbind m f) (fun T w b T' => exists w1 w2 a T1, w = w1 ++ w2 /\ G1 T w1 a T1 /\ G2 a T1 w2 b T').
Proof.
  intros H1 H2 d s e d' b T HB Hr HT E. apply bind_ok in E. destruct E as (d1 & a & E1 & E2).
  destruct (H1 d s e d1 a T HB Hr HT E1) as (w1 & r1 & T1 & -> & R1 & HT1 & O1 & G1'). apply Forall_app in HB.
  destruct (H2 a d1 r1 e d' b T1 (proj2 HB) R1 HT1 E2) as (w2 & r2 & T2 & -> & R2 & HT2 & O2 & G2').
  exists (w1 ++ w2), r2, T2. split; [apply app_assoc|]. split; [exact R2|]. split; [exact HT2|]. split; [congruence|].
  exists w1, w2, a, T1. repeat split; assumption.
Qed.
Lemma acs_byte : acs read_byte (fun T w a T' => w = [a] /\ byte a /\ T' = T).
Proof.
  intros d s e d' b T HB Hr HT E. destruct (read_byte_inv _ _ _ _ _ Hr E) as (rest & -> & R). exists [b], rest, T. split; [reflexivity|]. split; [exact R|].
  apply Forall_cons_iff in HB. unfold read_byte in E. apply bind_ok in E. destruct E as (d1 & x & E1 & E2). inversion E2; subst. unfold read_bytes in E1. destruct (read 1 (d_r d)) as [r [y|y| |]]; try discriminate. destruct (len y =? 1); inversion E1; subst.
  split; [exact HT|]. split; [reflexivity|]. split; [reflexivity|]. split; [apply HB|reflexivity].
Qed.
Lemma acs_u29 : acs read_u29 (fun T w a T' => u29 a w /\ T' = T).
Proof.
  assert (X : forall x, byte x -> Z.land x 128 = 0 \/ Z.land x 128 = 128 /\ 128 <= x).
  { intros x Hx. rewrite land128 by exact Hx. destruct (x <? 128) eqn:E; [left; reflexivity|right; lia]. }
  assert (Y : forall x, byte x -> Z.land x 128 =? 0 = (x <? 128)).
  { intros x Hx. rewrite land128 by exact Hx. destruct (x <? 128); reflexivity. }
  unfold read_u29. eapply acs_weak.
  - eapply acs_bind; [apply acs_byte|]. intros b1. cbv beta.
    instantiate (1 := fun b1 T w a T' => byte b1 -> u29 a (b1 :: w) /\ T' = T). cbv beta.
    assert (Z1 : forall b1, acs (if Z.land b1 128 =? 0 then dret (u32 (Z.shiftl 0 7 + Z.land b1 127)) else
       d* b2 := read_byte in let r2 := u32 (Z.shiftl (u32 (Z.shiftl 0 7 + Z.land b1 127)) 7 + Z.land b2 127) in
       if Z.land b2 128 =? 0 then dret r2 else d* b3 := read_byte in let r3 := u32 (Z.shiftl r2 7 + Z.land b3 127) in
       if Z.land b3 128 =? 0 then dret r3 else d* b4 := read_byte in dret (u32 (Z.shiftl r3 8 + b4))) (fun T w a T' => byte b1 -> u29 a (b1 :: w) /\ T' = T)).
    { clear b1. intros b1. destruct (Z.land b1 128 =? 0) eqn:E1.
      - eapply acs_weak; [apply acs_ret|]. cbv beta. intros T w a T' _ (-> & -> & ->) B1. rewrite Y in E1 by exact B1. split; [|reflexivity]. unfold byte in B1.
        rewrite land127, shiftl_mul by lia. rewrite u32_id by lia. replace (0 * 2 ^ 7 + b1 mod 128) with b1 by lia. constructor; lia.
      - eapply acs_weak.
        + eapply acs_bind; [apply acs_byte|]. intros b2. cbv beta zeta.
          instantiate (1 := fun b2 T w a T' => byte b1 -> byte b2 -> u29 a (b1 :: b2 :: w) /\ T' = T). cbv beta.
          destruct (Z.land b2 128 =? 0) eqn:E2.
          * eapply acs_weak; [apply acs_ret|]. cbv beta. intros T w a T' _ (-> & -> & ->) B1 B2. rewrite Y in E1, E2 by assumption. split; [|reflexivity]. unfold byte in B1, B2.
            rewrite !land127, !shiftl_mul by lia. change (2 ^ 7) with 128. pose proof (u29_2 (b1 - 128) b2 ltac:(lia) ltac:(lia)) as P.
            replace (128 + (b1 - 128)) with b1 in P by lia. replace ((b1 - 128) * 128 + b2) with (u32 (u32 (0 * 128 + b1 mod 128) * 128 + b2 mod 128)) in P by (unfold u32; lia). exact P.
          * eapply acs_weak.
            -- eapply acs_bind; [apply acs_byte|]. intros b3. cbv beta zeta.
               instantiate (1 := fun b3 T w a T' => byte b1 -> byte b2 -> byte b3 -> u29 a (b1 :: b2 :: b3 :: w) /\ T' = T). cbv beta.
               destruct (Z.land b3 128 =? 0) eqn:E3.
               ++ eapply acs_weak; [apply acs_ret|]. cbv beta. intros T w a T' _ (-> & -> & ->) B1 B2 B3. rewrite Y in E1, E2, E3 by assumption. split; [|reflexivity]. unfold byte in B1, B2, B3.
                  rewrite !land127, !shiftl_mul by lia. change (2 ^ 7) with 128. pose proof (u29_3 (b1 - 128) (b2 - 128) b3 ltac:(lia) ltac:(lia) ltac:(lia)) as P.
                  replace (128 + (b1 - 128)) with b1 in P by lia. replace (128 + (b2 - 128)) with b2 in P by lia.
                  replace (((b1 - 128) * 128 + (b2 - 128)) * 128 + b3) with (u32 (u32 (u32 (0 * 128 + b1 mod 128) * 128 + b2 mod 128) * 128 + b3 mod 128)) in P by (unfold u32; lia). exact P.
               ++ eapply acs_weak; [eapply acs_bind; [apply acs_byte|intros b4; apply acs_ret]|]. cbv beta.
                  intros T w a T' _ (w1 & w2 & b4 & T1 & -> & (-> & B4 & ->) & (-> & -> & ->)) B1 B2 B3. rewrite Y in E1, E2, E3 by assumption. split; [|reflexivity]. unfold byte in B1, B2, B3, B4.
                  rewrite !land127, !shiftl_mul by lia. change (2 ^ 7) with 128. change (2 ^ 8) with 256. pose proof (u29_4 (b1 - 128) (b2 - 128) (b3 - 128) b4 ltac:(lia) ltac:(lia) ltac:(lia) ltac:(lia)) as P.
                  replace (128 + (b1 - 128)) with b1 in P by lia. replace (128 + (b2 - 128)) with b2 in P by lia. replace (128 + (b3 - 128)) with b3 in P by lia. cbn [app].
                  replace ((((b1 - 128) * 128 + (b2 - 128)) * 128 + (b3 - 128)) * 256 + b4) with (u32 (u32 (u32 (u32 (0 * 128 + b1 mod 128) * 128 + b2 mod 128) * 128 + b3 mod 128) * 256 + b4)) in P by (unfold u32; lia). exact P.
            -- cbv beta. intros T w a T' _ (w1 & w2 & b3 & T1 & -> & (-> & B3 & ->) & P) B1 B2. exact (P B1 B2 B3).
        + cbv beta. intros T w a T' _ (w1 & w2 & b2 & T1 & -> & (-> & B2 & ->) & P) B1. exact (P B1 B2). }
    apply Z1.
  - cbv beta. intros T w a T' _ (w1 & w2 & b1 & T1 & -> & (-> & B1 & ->) & P). exact (P B1).
Qed.
Lemma acs_du29 : acs decode_u29 (fun T w a T' => T' = T /\ exists k, 0 <= k /\ ((a = (true, k) /\ u29 (2 * k) w) \/ (a = (false, k) /\ u29 (2 * k + 1) w))).
Proof.
  unfold decode_u29. eapply acs_weak; [eapply acs_bind; [apply acs_u29|intros u; apply acs_ret]|]. cbv beta.
  intros T w a T' _ (w1 & w2 & u & T1 & -> & (Hu & ->) & (-> & -> & ->)). split; [reflexivity|]. rewrite app_nil_r. pose proof (u29_range _ _ Hu).
  change 1 with (2 ^ 1 - 1) at 1 3. rewrite land_ones, shiftr_div by lia. change (2 ^ 1) with 2. exists (u / 2). split; [lia|].
  destruct (Z.eqb_spec (u mod 2) 0) as [E|E]; [left|right]; (split; [reflexivity|]).
  - replace (2 * (u / 2)) with u by lia. exact Hu.
  - replace (2 * (u / 2) + 1) with u by lia. exact Hu.
Qed.


Lemma acs_bytes n : 0 < n -> acs (read_bytes n) (fun T w a T' => w = a /\ len a = n /\ T' = T).
Proof.
  intros Hn d s e d' b T HB Hr HT E. destruct (read_bytes_inv _ _ _ _ _ _ Hr E) as (rest & -> & R & L & _). exists b, rest, T. split; [reflexivity|]. split; [exact R|].
  unfold read_bytes in E. destruct (read n (d_r d)) as [r [y|y| |]]; try discriminate. destruct (len y =? n); inversion E. subst d'. split; [exact HT|]. split; [reflexivity|]. split; [reflexivity|]. split; [exact L|reflexivity].
Qed.
Lemma acs_be8 : acs (read_be 8) (fun T w a T' => w = be64 a /\ 0 <= a < 2 ^ 64 /\ T' = T).
Proof.
  intros d s e d' b T HB Hr HT E. destruct (read_be_inv 8 _ _ _ _ _ ltac:(lia) Hr E) as (a & rest & -> & L & -> & R). exists a, rest, T. split; [reflexivity|]. split; [exact R|].
  apply Forall_app in HB. destruct (be64_inv a (proj1 HB) L) as [Ea Ra]. unfold read_be in E. destruct (read_full 8 (d_r d)) as [r [y|y| |]]; try discriminate. inversion E. subst d'. split; [exact HT|]. split; [reflexivity|]. rewrite H1. split; [exact Ea|split; [exact Ra|reflexivity]].
Qed.
Lemma acs_string : acs decode_string3 (fun T w a T' => exists st, utf8vr (t_strings T) w a st /\ T' = with_strings st T).
Proof.
  unfold decode_string3. eapply acs_weak.
  - eapply acs_bind; [apply acs_du29|]. intros [is_ref v]. cbv beta iota.
    instantiate (1 := fun p T w a T' => 0 <= snd p -> exists st, T' = with_strings st T /\ forall b,
      (if fst p then u29 (2 * snd p) b else u29 (2 * snd p + 1) b) -> utf8vr (t_strings T) (b ++ w) a st). cbn [fst snd].
    destruct is_ref.
    + intros d s e d' a T HB Hr HT E. destruct (len (d_str3 d) <=? v) eqn:EL; [discriminate|]. inversion E; subst d' a. exists [], s, T. split; [reflexivity|]. split; [exact Hr|]. split; [exact HT|]. split; [reflexivity|].
      intros H0. exists (t_strings T). split; [destruct T; reflexivity|]. intros b Hb. rewrite app_nil_r. destruct HT as [HT _]. rewrite HT in *. apply vr_ref with (i := Z.to_nat v); [rewrite Z2Nat.id by lia; exact Hb|]. apply nth_error_len; assumption.
    + destruct (Z.eqb_spec v 0) as [->|Hv].
      * eapply acs_weak; [apply acs_ret|]. cbv beta. intros T w a T' _ (-> & -> & ->) _. exists (t_strings T). split; [destruct T; reflexivity|]. intros b Hb. rewrite app_nil_r. apply vr_empty. exact Hb.
      * destruct (Z_lt_le_dec 0 v) as [Hp|Hn].
        2:{ intros d s e d' a T HB Hr HT E. exfalso. apply bind_ok in E. destruct E as (d1 & x & E1 & _). destruct (read_bytes_inv _ _ _ _ _ _ Hr E1) as (? & _ & _ & L & _). pose proof (len_nonneg x). lia. }
        intros d s e d' a T HB Hr HT E. apply bind_ok in E. destruct E as (d1 & x & E1 & E2). inversion E2; subst d' a.
        destruct (acs_bytes v Hp d s e d1 x T HB Hr HT E1) as (w & rest & T' & S1 & R & HT' & HO & -> & L & ->). exists x, rest, (with_strings (t_strings T ++ [x]) T). split; [exact S1|]. split; [exact R|]. split.
        { destruct HT' as [H1 H2]. split; cbn; congruence. }
        split; [exact HO|].
        intros _. exists (t_strings T ++ [x]). split; [reflexivity|]. intros b Hb. apply vr_lit; [intros ->; unfold len in L; cbn in L; lia|]. rewrite L. exact Hb.
  - cbv beta. intros T w a T' _ (w1 & w2 & [r v] & T1 & -> & (-> & k & Hk & HH) & P). cbn [fst snd] in P.
    destruct HH as [[E1 Hu]|[E1 Hu]]; inversion E1; subst; destruct (P Hk) as (st & -> & HP); exists st; (split; [apply HP, Hu|reflexivity]).
Qed.
Lemma acs_strings f : forall n, 0 <= n -> acs (loop_n decode_string3 f n) (fun T w a T' => len a = n /\ exists st, utf8vrs (t_strings T) w a st /\ T' = with_strings st T).
Proof.
  induction f as [|f IH]; intros n Hn; cbn [loop_n]; (destruct (Z.leb_spec n 0); [eapply acs_weak; [apply acs_ret|]; cbv beta; intros T w a T' _ (-> & -> & ->); split; [unfold len; cbn; lia|]; exists (t_strings T); split; [constructor|destruct T; reflexivity]|]).
  - apply acs_fuel.
  - eapply acs_weak; [eapply acs_bind; [apply acs_string|]; intros x; eapply acs_bind; [apply IH; lia|]; intros xs; apply acs_ret|]. cbv beta.
    intros T w a T' _ (w1 & w2 & x & T1 & -> & (st & H1 & ->) & (w3 & w4 & xs & T2 & -> & (L & st2 & H2 & ->) & (-> & -> & ->))). rewrite app_nil_r. split; [rewrite len_cons; lia|].
    exists st2. split; [econstructor; eassumption|reflexivity].
Qed.

Lemma acs_trait f v : 0 <= v -> acs (decode_trait f v) (fun T w t T' => exists c, t = plain c /\ forall b, u29 (2 * v + 1) b -> traits3 true T (b ++ w) c T').
Proof.
  intros Hv. unfold decode_trait. change 1 with (2 ^ 1 - 1) at 1. rewrite land_ones by lia. change (2 ^ 1) with 2. rewrite !shiftr_div by lia. change (2 ^ 1) with 2. change (2 ^ 3) with 8.
  destruct (Z.eqb_spec (v mod 2) 0) as [Ev|Ev].
  - intros d s e d' a T HB Hr HT E. destruct (len (d_trait3 d) <=? v / 2) eqn:EL; [discriminate|]. inversion E; subst d' a. exists [], s, T. split; [reflexivity|]. split; [exact Hr|]. split; [exact HT|]. split; [reflexivity|].
    destruct HT as [_ HT]. rewrite HT in *. change (mkTrait [] false false []) with (plain ([], [])). rewrite map_nth. eexists. split; [reflexivity|]. intros b Hb. rewrite app_nil_r.
    apply tr_ref with (i := Z.to_nat (v / 2)); [rewrite Z2Nat.id by lia; replace (4 * (v / 2) + 1) with (2 * v + 1) by lia; exact Hb|].
    apply nth_error_len; [lia|]. unfold len in *. rewrite map_length in EL. exact EL.
  - rewrite !not_bit_const by lia. cbv zeta.
    intros d s e d' a T HB Hr HT E. apply bind_ok in E. destruct E as (d1 & ty & E1 & E2). apply bind_ok in E2. destruct E2 as (d2 & props & E2 & E3). inversion E3; subst d' a. clear E3.
    destruct (acs_bind decode_string3 (fun ty => d* props := loop_n decode_string3 f (v / 8) in dret (ty, props)) _ (fun ty T w a T' => exists props st, a = (ty, props) /\ len props = v / 8 /\ utf8vrs (t_strings T) w props st /\ T' = with_strings st T) acs_string) with (d := d) (s := s) (e := e) (d' := d2) (a := (ty, props)) (T := T) as (w & rest & T' & S1 & R & HT' & HO & (w1 & w2 & ty' & T1 & -> & (st1 & HS & ->) & (props' & st2 & E3 & L & HSS & ->))); try assumption.
    { intros ty'. eapply acs_weak; [eapply acs_bind; [apply acs_strings; lia|intros ps; apply acs_ret]|]. cbv beta. intros T0 w a T' _ (w1 & w2 & ps & T1 & -> & (L & st & HS & ->) & (-> & -> & ->)). rewrite app_nil_r. exists ps, st. repeat split; assumption. }
    { unfold dbind. rewrite E1. cbv beta iota. rewrite E2. reflexivity. }
    inversion E3; subst ty' props'. exists (w1 ++ w2), rest, (mkTables st2 (t_classes T ++ [(ty, props)])). split; [exact S1|]. split; [exact R|]. split.
    { destruct HT' as [H1 H2]. split; cbn in *; [exact H1|]. rewrite map_app, H2. reflexivity. }
    split; [exact HO|].
    exists (ty, props). split; [reflexivity|]. intros b Hb. eapply tr_new with (flags := (v / 2) mod 4); [right; split; [reflexivity|lia]| |exact HS|exact HSS].
    rewrite L. replace (16 * (v / 8) + 4 * ((v / 2) mod 4) + 3) with (2 * v + 1) by lia. exact Hb.
Qed.

(** * Steps that may run past the end of the input *)
Definition acr {A} (m : Dm A) (G : world -> bytes -> nat -> A -> world -> Prop) : Prop := forall d s e d' a W, is_bytes s -> d_r d = contr s e -> relw W d -> m d = (d', Ok a) ->
  exists w rest k W', s ++ repeat 0 k = w ++ rest /\ (k = 0%nat \/ rest = [] /\ s <> []) /\ d_r d' = contr rest e /\ relw W' d' /\ G W w k a W'.
Lemma acr_weak {A} (m : Dm A) (G G' : world -> bytes -> nat -> A -> world -> Prop) : acr m G -> (forall W w k a W', G W w k a W' -> G' W w k a W') -> acr m G'.
Proof.
  intros H HG d s e d' a W HB Hr HT E. destruct (H d s e d' a W HB Hr HT E) as (w & rest & k & W' & E1 & K & R & HT' & HGw). exists w, rest, k, W'. split; [exact E1|]. split; [exact K|]. split; [exact R|]. split; [exact HT'|]. apply HG, HGw.
Qed.
Lemma acr_ret {A} (a : A) : acr (dret a) (fun W w k b W' => w = [] /\ k = 0%nat /\ b = a /\ W' = W).
Proof. intros d s e d' b W HB Hr HT E. inversion E; subst. exists [], s, 0%nat, W. rewrite app_nil_r. split; [reflexivity|]. split; [left; reflexivity|]. split; [exact Hr|]. split; [exact HT|]. repeat split. Qed.
Lemma acr_fail {A} x G : acr (@dfail A x) G. Proof. intros d s e d' b W HB Hr HT E. discriminate. Qed.
Lemma acr_fuel {A} G : acr (fun d => (d, OutOfFuel) : dstate * res A) G. Proof. intros d s e d' b W HB Hr HT E. discriminate. Qed.
Lemma acr_of_acs {A} (m : Dm A) G : acs m G -> acr m (fun W w k a W' => k = 0%nat /\ exists T', W' = with_tables T' W /\ G (w_tables W) w a T').
Proof.
  intros H d s e d' a W HB Hr [HT HP] E. destruct (H d s e d' a _ HB Hr HT E) as (w & rest & T' & -> & R & HT' & HO & HG). exists w, rest, 0%nat, (with_tables T' W). rewrite app_nil_r. split; [reflexivity|]. split; [left; reflexivity|]. split; [exact R|].
  split; [split; [exact HT'|cbn [w_places with_tables]; rewrite HO; exact HP]|]. split; [reflexivity|]. exists T'. split; [reflexivity|exact HG].
Qed.
Lemma acr_bind_if {A B} (m : Dm A) (f : A -> Dm B) G1 (G2 : A -> world -> bytes -> nat -> B -> world -> Prop) : acr m G1 -> (forall a, (exists W w k W', G1 W w k a W') -> acr (f a) (G2 a)) ->
  acr (dbind m f) (fun W w k b W' => exists w1 w2 k1 k2 a W1, w = w1 ++ w2 /\ k = (k1 + k2)%nat /\ (k1 = 0%nat \/ w2 = [] /\ k2 = 0%nat) /\ G1 W w1 k1 a W1 /\ G2 a W1 w2 k2 b W').
Proof.
  intros H1 H2 d s e d' b W HB Hr HT E. apply bind_ok in E. destruct E as (d1 & a & E1 & E2).
  destruct (H1 d s e d1 a W HB Hr HT E1) as (w1 & r1 & k1 & W1 & S1 & K1 & R1 & HT1 & G1').
  assert (B1 : is_bytes r1). { assert (BB : is_bytes (s ++ repeat 0 k1)) by (apply Forall_app; split; [exact HB|apply zeros_bytes]). rewrite S1 in BB. apply Forall_app in BB. tauto. }
  destruct (H2 a ltac:(eauto 6) d1 r1 e d' b W1 B1 R1 HT1 E2) as (w2 & r2 & k2 & W2 & S2 & K2 & R2 & HT2 & G2').
  assert (X : k1 = 0%nat \/ (w2 = [] /\ r2 = [] /\ k2 = 0%nat /\ s <> [])).
  { destruct K1 as [->|[-> NE]]; [left; reflexivity|right]. assert (k2 = 0%nat) by (destruct K2 as [->|[_ X]]; [reflexivity|congruence]). subst k2. cbn [app repeat] in S2. symmetry in S2. apply app_eq_nil in S2. tauto. }
  exists (w1 ++ w2), r2, (k1 + k2)%nat, W2. split; [|split; [|split; [exact R2|split; [exact HT2|]]]].
  - rewrite repeat_app, app_assoc, S1, <- !app_assoc, S2. reflexivity.
  - destruct X as [->|(-> & -> & -> & NE)]; [|right; split; [reflexivity|exact NE]]. destruct K2 as [->|[-> NE]]; [left; reflexivity|right]. split; [reflexivity|]. cbn [repeat] in S1. rewrite app_nil_r in S1. intros ->. symmetry in S1. apply app_eq_nil in S1. tauto.
  - exists w1, w2, k1, k2, a, W1. split; [reflexivity|]. split; [reflexivity|]. split; [tauto|]. split; assumption.
Qed.
Lemma acr_bind {A B} (m : Dm A) (f : A -> Dm B) G1 (G2 : A -> world -> bytes -> nat -> B -> world -> Prop) : acr m G1 -> (forall a, acr (f a) (G2 a)) ->
  acr (dbind m f) (fun W w k b W' => exists w1 w2 k1 k2 a W1, w = w1 ++ w2 /\ k = (k1 + k2)%nat /\ (k1 = 0%nat \/ w2 = [] /\ k2 = 0%nat) /\ G1 W w1 k1 a W1 /\ G2 a W1 w2 k2 b W').
Proof. intros H1 H2. apply acr_bind_if; auto. Qed.
(** A first step that reads neither too much nor into the places. *)
Lemma acr_acs_bind {A B} (m : Dm A) (f : A -> Dm B) G1 (G2 : A -> world -> bytes -> nat -> B -> world -> Prop) : acs m G1 -> (forall a, (exists T w T', G1 T w a T') -> acr (f a) (G2 a)) ->
  acr (dbind m f) (fun W w k b W' => exists w1 w2 a T1, w = w1 ++ w2 /\ G1 (w_tables W) w1 a T1 /\ G2 a (with_tables T1 W) w2 k b W').
Proof.
  intros H1 H2. eapply acr_weak; [eapply acr_bind_if; [apply acr_of_acs, H1|]|].
  - intros a (W & w & k & W' & _ & T' & _ & HG). apply H2. eauto.
  - cbv beta. intros W w k b W' (w1 & w2 & k1 & k2 & a & W1 & -> & -> & _ & (-> & T' & -> & HG1) & HG2). exists w1, w2, a, T'. repeat split; assumption.
Qed.
(** A first step that reads nothing. *)
Definition quiet {A} (m : Dm A) (P : world -> A -> world -> Prop) : Prop := forall d d' a W, relw W d -> m d = (d', Ok a) -> d_r d' = d_r d /\ exists W', relw W' d' /\ P W a W'.
Lemma acr_quiet_bind {A B} (m : Dm A) (f : A -> Dm B) P (G2 : A -> world -> bytes -> nat -> B -> world -> Prop) : quiet m P -> (forall a, acr (f a) (G2 a)) ->
  acr (dbind m f) (fun W w k b W' => exists a W1, P W a W1 /\ G2 a W1 w k b W').
Proof.
  intros H1 H2 d s e d' b W HB Hr HT E. apply bind_ok in E. destruct E as (d1 & a & E1 & E2). destruct (H1 d d1 a W HT E1) as (R1 & W1 & HT1 & HP).
  destruct (H2 a d1 s e d' b W1 HB ltac:(congruence) HT1 E2) as (w & rest & k & W' & S1 & K & R & HT' & HG). exists w, rest, k, W'. split; [exact S1|]. split; [exact K|]. split; [exact R|]. split; [exact HT'|]. exists a, W1. split; assumption.
Qed.
Lemma quiet_push o v : holds o v -> quiet (obj3_push v) (fun W _ W' => W' = place o W).
Proof. intros Ho d d' a W [HT HP] E. inversion E; subst. split; [reflexivity|]. exists (place o W). split; [split; [exact HT|apply places_push; assumption]|reflexivity]. Qed.
Lemma quiet_alloc : quiet alloc (fun W _ W' => W' = W). Proof. intros d d' a W HT E. inversion E; subst. split; [reflexivity|]. exists W. split; [exact HT|reflexivity]. Qed.
Lemma quiet_set l k v : quiet (obj_set l k v) (fun W _ W' => W' = W). Proof. intros d d' a W HT E. inversion E; subst. split; [reflexivity|]. exists W. split; [exact HT|reflexivity]. Qed.
Lemma quiet_ref v : 0 <= v -> quiet (obj3_ref v) (fun W x W' => W' = W /\ exists p, nth_error (w_places W) (Z.to_nat v) = Some (Some p) /\ holds (Some p) x).
Proof.
  intros Hv d d' a W HT E. unfold obj3_ref in E. destruct (len (d_obj3 d) <=? v) eqn:EL; inversion E; subst. split; [reflexivity|]. exists W. split; [exact HT|]. split; [reflexivity|].
  eapply places_nth_val; [exact (proj2 HT)|]. apply nth_error_len; assumption.
Qed.
Lemma acr_into n : 0 < n -> acr (read_into n) (fun W w k a W' => w = a /\ len a = n /\ (k < length a)%nat /\ W' = W).
Proof.
  intros Hn d s e d' b W HB Hr HT E. unfold read_into in E. rewrite Hr in E. destruct (read_split n s e) as (a & rest & E1 & R & H). pose proof (read_ok n s e) as HO.
  assert (NE : s <> []). { intros ->. unfold read in E. cbn [contr r_chunks r_end r_with] in E. destruct (n =? 0) eqn:E0; [lia|]. cbn [andb] in E. discriminate. }
  destruct (read n (contr s e)) as [r [y|y| |]]; try discriminate. cbn [fst snd] in *. inversion E; subst d' b. destruct (H y eq_refl) as [-> _].
  destruct (HO a Hn eq_refl) as [L|(-> & L & R')].
  - rewrite L, Z.sub_diag. cbn [repeat Z.to_nat]. rewrite app_nil_r. exists a, rest, 0%nat, W. rewrite app_nil_r. split; [exact E1|]. split; [left; reflexivity|]. split; [exact R|]. split; [exact HT|]. split; [reflexivity|]. split; [exact L|]. split; [unfold len in L; lia|reflexivity].
  - exists (s ++ repeat 0 (Z.to_nat (n - len s))), [], (Z.to_nat (n - len s)), W. rewrite app_nil_r. split; [reflexivity|]. split; [right; split; [reflexivity|exact NE]|]. split; [exact R'|]. split; [exact HT|].
    split; [reflexivity|]. assert (0 < length s)%nat by (destruct s; [congruence|cbn; lia]). rewrite app_length, repeat_length. split; [|split; [lia|reflexivity]]. unfold len in *. rewrite app_length, repeat_length. lia.
Qed.

(** * The recursive part *)
Definition gvalr (W : world) (w : bytes) (k : nat) (v : value) (W' : world) : Prop := exists p, value3r Library W w k p W'.
Lemma value3r_ne r W w k p W' : value3r r W w k p W' -> w <> [].
Proof. intros H ->. pose proof (proj1 (cut_lengths r) _ _ _ _ _ H) as X. cbn in X. lia. Qed.
Section Rec.
  Context (dec : Dm value) (Hdec : acr dec gvalr).
  Lemma acr_values f : forall n, 0 <= n -> acr (loop_n dec f n) (fun W w k a W' => exists ps, len ps = n /\ values3r Library W w k ps W').
  Proof.
    induction f as [|f IH]; intros n Hn; cbn [loop_n]; (destruct (Z.leb_spec n 0); [eapply acr_weak; [apply acr_ret|]; cbv beta; intros W w k a W' (-> & -> & -> & ->); exists []; split; [unfold len; cbn; lia|constructor]|]).
    - apply acr_fuel.
    - eapply acr_weak; [eapply acr_bind; [exact Hdec|]; intros x; eapply acr_bind; [apply IH; lia|]; intros xs; apply acr_ret|]. cbv beta.
      intros W w k a W' (w1 & w2 & k1 & k2 & x & W1 & -> & -> & K1 & (p & H1) & (w3 & w4 & k3 & k4 & xs & W2 & -> & -> & _ & (ps & L & H2) & (-> & -> & -> & ->))).
      rewrite app_nil_r, Nat.add_0_r in *. exists (p :: ps). split; [rewrite len_cons; lia|]. eapply vsr3_cons; [exact H1|exact H2|tauto].
  Qed.
  Lemma acr_props loc keys : acr (props_loop dec loc keys) (fun W w k a W' => exists ps, length ps = length keys /\ values3r Library W w k ps W').
  Proof.
    induction keys as [|key keys IH]; cbn [props_loop].
    - eapply acr_weak; [apply acr_ret|]. cbv beta. intros W w k a W' (-> & -> & -> & ->). exists []. split; [reflexivity|constructor].
    - eapply acr_weak; [eapply acr_bind; [exact Hdec|]; intros x; eapply acr_quiet_bind; [apply quiet_set|]; intros u; exact IH|]. cbv beta.
      intros W w k a W' (w1 & w2 & k1 & k2 & x & W1 & -> & -> & K1 & (p & H1) & (u & W2 & -> & (ps & L & H2))). exists (p :: ps). split; [cbn; congruence|]. eapply vsr3_cons; [exact H1|exact H2|tauto].
  Qed.
  Lemma acr_assoc f : forall loc key, acr (assoc_loop dec f loc key) (fun W w k a W' => k = 0%nat /\ forall W0 bk st, utf8vr (t_strings (w_tables W0)) bk key st -> W = with_tables (with_strings st (w_tables W0)) W0 -> exists fs, assoc3r Library W0 (bk ++ w) fs W').
  Proof.
    induction f as [|f IH]; intros loc key; (destruct key as [|x key]; cbn [assoc_loop]; [eapply acr_weak; [apply acr_ret|]; cbv beta; intros W w k a W' (-> & -> & -> & ->); split; [reflexivity|]; intros W0 bk st H ->; rewrite app_nil_r; exists []; constructor; exact H|]).
    - apply acr_fuel.
    - eapply acr_weak; [eapply acr_bind; [exact Hdec|]; intros v; eapply acr_quiet_bind; [apply quiet_set|]; intros u; eapply acr_acs_bind; [apply acs_string|]; intros k _; apply IH|]. cbv beta.
      intros W w k a W' (w1 & w2 & k1 & k2 & v & W1 & -> & -> & K1 & (p & H1) & (u & W2 & -> & (w5 & w6 & kk & T3 & -> & (st' & H2 & ->) & (-> & H3)))).
      assert (k1 = 0%nat). { destruct K1 as [->|[K1 _]]; [reflexivity|]. apply app_eq_nil in K1. destruct K1 as [-> _]. apply utf8vr_nonempty in H2. cbn in H2. lia. }
      subst k1. split; [reflexivity|]. intros W0 bk st H ->. destruct (H3 W1 w5 st' H2 eq_refl) as [fs HF]. exists ((x :: key, p) :: fs). eapply asr3_cons; [exact H|discriminate|exact H1|exact HF].
  Qed.
End Rec.

(** What follows a marker. *)
Definition afterr (m : Z) (W : world) (w : bytes) (k : nat) (v : value) (W' : world) : Prop := exists p, value3r Library W (m :: w) k p W'.
Lemma acr_du29_then {B} (f : bool * Z -> Dm B) m (G : world -> bytes -> nat -> B -> world -> Prop) :
  (forall i, 0 <= i -> acr (f (true, i)) (fun W w k b W' => forall bk, u29 (2 * i) bk -> G W (bk ++ w) k b W')) ->
  (forall i, 0 <= i -> acr (f (false, i)) (fun W w k b W' => forall bk, u29 (2 * i + 1) bk -> G W (bk ++ w) k b W')) ->
  m = (d* p := decode_u29 in f p) -> acr m G.
Proof.
  intros H1 H2 ->. eapply acr_weak; [eapply acr_acs_bind; [apply acs_du29|]|].
  - intros [r i] (T & w & T' & _ & i' & Hi & X). instantiate (1 := fun p W w k b W' => forall bk, u29 (if fst p then 2 * snd p else 2 * snd p + 1) bk -> G W (bk ++ w) k b W'). cbn [fst snd].
    assert (0 <= i) by (destruct X as [[E _]|[E _]]; inversion E; lia). destruct r; [apply H1|apply H2]; assumption.
  - cbv beta. intros W w k b W' (w1 & w2 & p & T1 & -> & (-> & i & Hi & X) & HG). replace (with_tables (w_tables W) W) with W in HG by (destruct W; reflexivity).
    destruct X as [[-> Hu]|[-> Hu]]; apply HG, Hu.
Qed.
Lemma acr_objref m i (g : value -> Dm value) : 0 <= i ->
  (forall p x, holds (Some p) x -> g x = dfail EOther \/ g x = dret x /\ refers Library m p) ->
  acr (d* x := obj3_ref i in g x) (fun W w k b W' => forall bk, u29 (2 * i) bk -> afterr m W (bk ++ w) k b W').
Proof.
  intros Hi Hg d s e d' a W HB Hr HT E. apply bind_ok in E. destruct E as (d1 & x & E1 & E2). destruct (quiet_ref i Hi d d1 x W HT E1) as (R1 & W1 & HT1 & -> & p & Hn & HH).
  destruct (Hg p x HH) as [X|[X HR]]; rewrite X in E2; [discriminate|]. inversion E2; subst d' a. exists [], s, 0%nat, W. rewrite app_nil_r. split; [reflexivity|]. split; [left; reflexivity|]. split; [congruence|]. split; [exact HT1|].
  intros bk Hb. exists p. rewrite app_nil_r. apply vr3_reference with (i := Z.to_nat i); [rewrite Z2Nat.id by lia; exact Hb|exact Hn|exact HR].
Qed.
Ltac objref := let p := fresh in let x := fresh in let H := fresh in intros p x H; inversion H; subst; first [left; reflexivity|right; split; [reflexivity|unfold refers; eauto 12]].
Lemma acr_xml m : m = 7 \/ m = 11 -> acr decode_xmldoc3 (afterr m).
Proof.
  intros Hm. eapply acr_du29_then; [| |reflexivity]; intros i Hi; cbv beta iota.
  - apply acr_objref; [exact Hi|]. destruct Hm as [->| ->]; objref.
  - destruct (Z.eqb_spec i 0) as [->|Hi0].
    + eapply acr_weak; [apply acr_ret|]. cbv beta. intros W w k a W' (-> & -> & -> & ->) bk Hb. exists (PStr []). apply (vr3_xml Library W m bk [] 0 Hm Hb). left. reflexivity.
    + eapply acr_weak; [eapply acr_bind; [apply acr_into; lia|]; intros x; eapply acr_quiet_bind; [apply quiet_push; constructor|]; intros u; apply acr_ret|]. cbv beta.
      intros W w k a W' (w1 & w2 & k1 & k2 & x & W1 & -> & -> & _ & (-> & L & LK & ->) & (u & W2 & -> & (-> & -> & -> & ->))) bk Hb. rewrite app_nil_r, Nat.add_0_r. exists (PStr x).
      replace (place (Some (PStr x)) W) with (entered Library x (PStr x) W) by (destruct x; [cbn in LK; lia|reflexivity]). apply vr3_xml; [exact Hm|rewrite L; exact Hb|]. right. exact LK.
Qed.
Lemma acr_bytearray : acr decode_bytearray3 (afterr 12).
Proof.
  eapply acr_du29_then; [| |reflexivity]; intros i Hi; cbv beta iota.
  - apply acr_objref; [exact Hi|]. objref.
  - destruct (Z.eqb_spec i 0) as [->|Hi0].
    + eapply acr_weak; [apply acr_ret|]. cbv beta. intros W w k a W' (-> & -> & -> & ->) bk Hb. exists (PBytes []). apply (vr3_bytes Library W bk [] 0 Hb). left. reflexivity.
    + eapply acr_weak; [eapply acr_bind; [apply acr_into; lia|]; intros x; eapply acr_quiet_bind; [apply quiet_push; constructor|]; intros u; apply acr_ret|]. cbv beta.
      intros W w k a W' (w1 & w2 & k1 & k2 & x & W1 & -> & -> & _ & (-> & L & LK & ->) & (u & W2 & -> & (-> & -> & -> & ->))) bk Hb. rewrite app_nil_r, Nat.add_0_r. exists (PBytes x).
      replace (place (Some (PBytes x)) W) with (entered Library x (PBytes x) W) by (destruct x; [cbn in LK; lia|reflexivity]). apply vr3_bytes; [rewrite L; exact Hb|]. right. exact LK.
Qed.
Lemma acr_date : acr decode_date3 (afterr 8).
Proof.
  eapply acr_du29_then; [| |reflexivity]; intros i Hi; cbv beta iota.
  - apply acr_objref; [exact Hi|]. objref.
  - eapply acr_weak.
    + eapply acr_acs_bind; [|intros x _; cbv zeta; eapply acr_quiet_bind; [apply quiet_push; constructor|]; intros u; apply acr_ret].
      instantiate (1 := fun T w a T' => w = be64 a /\ 0 <= a < 2 ^ 64 /\ T' = T). intros d s e d' a T HB Hr HT E. apply (acs_be8 d s e d' a T HB Hr HT). destruct (read_be 8 d) as [d1 [y|y| |]]; try discriminate. exact E.
    + cbv beta. intros W w k a W' (w1 & w2 & x & T1 & -> & (-> & Hx & ->) & (u & W2 & -> & (-> & -> & -> & ->))) bk Hb. rewrite app_nil_r. replace (with_tables (w_tables W) W) with W by (destruct W; reflexivity). eexists. eapply vr3_date; [exact Hb|exact Hx|reflexivity].
Qed.
Lemma acr_array dec f : acr dec gvalr -> acr (decode_array3 dec f) (afterr 9).
Proof.
  intros Hdec. eapply acr_du29_then; [| |reflexivity]; intros i Hi; cbv beta iota.
  - apply acr_objref; [exact Hi|]. objref.
  - eapply acr_weak; [eapply acr_acs_bind; [apply acs_string|]; intros key _; eapply acr_quiet_bind; [apply quiet_push; constructor|]; intros u; eapply acr_quiet_bind; [apply quiet_alloc|]; intros loc; eapply acr_bind; [apply acr_assoc, Hdec|]; intros u2; eapply acr_bind; [apply acr_values; [exact Hdec|exact Hi]|]; intros vs; apply acr_ret|]. cbv beta.
    intros W w k a W' (w1 & w2 & key & T1 & -> & (st & HS & ->) & (u & W2 & -> & (loc & W3 & -> & (w7 & w8 & k7 & k8 & u2 & W4 & -> & -> & _ & (-> & HA) & (w9 & w10 & k9 & k10 & vs & W5 & -> & -> & _ & (ps & L & HV) & (-> & -> & -> & ->)))))) bk Hb.
    destruct (HA (begun Library (PEcma [] []) W) w1 st HS eq_refl) as [fs HF]. rewrite app_nil_r, Nat.add_0_r. cbn [Nat.add]. eexists. rewrite (app_assoc w1). eapply (vr3_array Library W); [rewrite L; exact Hb|reflexivity|exact HF|exact HV].
Qed.
Lemma acr_object dec f : acr dec gvalr -> acr (decode_object3 dec f) (afterr 10).
Proof.
  intros Hdec. eapply acr_du29_then; [| |reflexivity]; intros i Hi; cbv beta iota.
  - intros d s e d' a W HB Hr HT E. destruct (quiet_ref i Hi d d' a W HT E) as (R1 & W1 & HT1 & -> & p & Hn & HH). exists [], s, 0%nat, W. rewrite app_nil_r. split; [reflexivity|]. split; [left; reflexivity|]. split; [congruence|]. split; [exact HT1|].
    intros bk Hb. exists p. rewrite app_nil_r. apply vr3_reference with (i := Z.to_nat i); [rewrite Z2Nat.id by lia; exact Hb|exact Hn|unfold refers; auto 10].
  - eapply acr_weak.
    + eapply acr_acs_bind with (G2 := fun t W w k _ W' => exists ps, length ps = length (t_props t) /\ values3r Library (begun Library PNil W) w k ps W'); [apply acs_trait, Hi|]. intros t (T0 & w0 & T0' & c & -> & _). cbn [plain t_ext t_dyn t_props].
      eapply acr_weak; [eapply acr_quiet_bind; [apply quiet_push; constructor|]; intros u; eapply acr_quiet_bind; [apply quiet_alloc|]; intros loc; eapply acr_bind; [apply acr_props, Hdec|]; intros u2; eapply acr_bind; [apply acr_ret|]; intros u3; apply acr_ret|]. cbv beta.
      intros W w k a W' (u & W2 & -> & (loc & W3 & -> & (w7 & w8 & k7 & k8 & u2 & W4 & -> & -> & _ & (ps & L & HV) & (w9 & w10 & k9 & k10 & u3 & W5 & -> & -> & _ & (-> & -> & -> & ->) & (-> & -> & -> & ->))))).
      exists ps. cbn [app]. rewrite !app_nil_r, !Nat.add_0_r. split; assumption.
    + cbv beta. intros W w k a W' (w1 & w2 & t & T1 & -> & (c & -> & HT) & (ps & L & HV)) bk Hb.
      cbn [plain t_props] in L. destruct c as [ty props]. cbn [snd] in L. eexists. rewrite app_assoc. eapply (vr3_object Library W); [apply HT, Hb|reflexivity|exact HV|exact L].
Qed.

Theorem dec3_acr f : acr (dec3 f) gvalr.
Proof.
  induction f as [|f IH]; cbn [dec3]; [apply acr_fuel|].
  eapply acr_weak.
  - eapply acr_acs_bind; [apply acs_byte|]. intros m _. instantiate (1 := afterr). cbv beta.
    assert (C : forall p a, (forall W, value3r Library W [m] 0 p W) -> acr (dret a) (afterr m)).
    { intros p a H. eapply acr_weak; [apply acr_ret|]. cbv beta. intros W w k b W' (-> & -> & -> & ->). exists p. apply H. }
    destruct (Z.eqb_spec m 0) as [->|_]; [apply C with PNil; intros; constructor|]. destruct (Z.eqb_spec m 1) as [->|_]; [apply C with PNil; intros; constructor|]. cbn [orb].
    destruct (Z.eqb_spec m 2) as [->|_]; [apply C with (PBool false); intros; constructor|]. destruct (Z.eqb_spec m 3) as [->|_]; [apply C with (PBool true); intros; constructor|].
    assert (WT : forall W, with_tables (w_tables W) W = W) by (intros []; reflexivity).
    destruct (Z.eqb_spec m 4) as [->|_].
    { eapply acr_weak; [eapply acr_acs_bind; [apply acs_u29|]; intros u _; apply acr_ret|]. cbv beta. intros W w k a W' (w1 & w2 & u & T1 & -> & (Hu & ->) & (-> & -> & -> & ->)). rewrite app_nil_r, WT. eexists. apply vr3_integer; [right; reflexivity|exact Hu]. }
    destruct (Z.eqb_spec m 5) as [->|_].
    { eapply acr_weak; [eapply acr_acs_bind; [apply acs_be8|]; intros u _; apply acr_ret|]. cbv beta. intros W w k a W' (w1 & w2 & u & T1 & -> & (-> & Hu & ->) & (-> & -> & -> & ->)). rewrite app_nil_r, WT. eexists. apply vr3_double. exact Hu. }
    destruct (Z.eqb_spec m 6) as [->|_].
    { eapply acr_weak; [eapply acr_acs_bind; [apply acs_string|]; intros u _; apply acr_ret|]. cbv beta. intros W w k a W' (w1 & w2 & u & T1 & -> & (st & Hu & ->) & (-> & -> & -> & ->)). rewrite app_nil_r. eexists. apply vr3_string. exact Hu. }
    destruct (Z.eqb_spec m 7) as [->|_]; [apply acr_xml; auto|]. destruct (Z.eqb_spec m 8) as [->|_]; [apply acr_date|]. destruct (Z.eqb_spec m 9) as [->|_]; [apply acr_array, IH|].
    destruct (Z.eqb_spec m 10) as [->|_]; [apply acr_object, IH|]. destruct (Z.eqb_spec m 11) as [->|_]; [apply acr_xml; auto|]. destruct (Z.eqb_spec m 12) as [->|_]; [apply acr_bytearray|]. apply acr_fail.
  - cbv beta. intros W w k a W' (w1 & w2 & m & T1 & -> & (-> & _ & ->) & H). replace (with_tables (w_tables W) W) with W in H by (destruct W; reflexivity). exact H.
Qed.
