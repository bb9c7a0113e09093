(** C35, C46-C51, C102, C103, C105: descriptors, audio synchronisation and the TS Mixer. *)
From Coq Require Import String.
From Verif Require Import Base.Go Base.GoFacts Base.IO Proofs.IOFacts Model.AmfTypes Model.Packet Model.Parsers Model.Crc32 Model.Ts
  Spec.Crc32 Spec.Parsers Spec.Ts Proofs.Crc32 Proofs.Parsers Proofs.TsPackets Proofs.TsTables Proofs.TsMore Props.Parsers Props.Ts Spec.Mixer.
Import ListNotations.
Local Open Scope list_scope.
Local Open Scope Z_scope.
Local Ltac Zify.zify_post_hook ::= Z.div_mod_to_equations.

(** ** C50, C51: descriptors *)
(** Calls on one Descriptor. *)
Inductive desc_op := DService (ty : Z) (provider service : bytes) | DName (name : bytes).
Definition desc_step (d : bytes) (o : desc_op) : bytes :=
  match o with DService ty p s => desc_service d ty p s | DName n => desc_network_name d n end.
(** What a reader should find: the tags and contents. *)
Definition desc_fits (o : desc_op) : Prop :=
  match o with DService _ p s => len p + len s <= 252 | DName n => len n <= 255 end.
Definition desc_found (o : desc_op) (c : Z * bytes) : Prop :=
  match o with
  | DService ty p s => fst c = 0x48 /\ read_service (snd c) = Some (ty, p, s)
  | DName n => fst c = 0x40 /\ snd c = n
  end.

Lemma read_descs_mono n : forall s ds, read_descs_fuel n s = Some ds -> forall k, (n <= k)%nat -> read_descs_fuel k s = Some ds.
Proof.
  induction n as [|n IH]; intros s ds H k Hk; destruct s as [|t [|l r]]; cbn [read_descs_fuel] in H; try discriminate; try (destruct k; exact H).
  destruct k as [|k]; [lia|]. cbn [read_descs_fuel]. destruct (l <=? len r); [|discriminate]. destruct (read_descs_fuel n (drop r l)) as [x|] eqn:E; [|discriminate].
  rewrite (IH _ _ E k) by lia. exact H.
Qed.
Lemma read_descs_cons t c rest ds : read_descs rest = Some ds -> read_descs (t :: len c :: c ++ rest) = Some ((t, c) :: ds).
Proof.
  intros H. unfold read_descs in *. change (length (t :: len c :: c ++ rest)) with (S (S (length (c ++ rest)))). remember (S (length (c ++ rest))) as k eqn:Ek. cbn [read_descs_fuel]. rewrite len_app. pose proof (len_nonneg rest). replace (len c <=? len c + len rest) with true by lia.
  rewrite drop_app, take_app. rewrite (read_descs_mono _ _ _ H k) by (rewrite app_length in Ek; lia). reflexivity.
Qed.
Lemma desc_run_app os : forall d, fold_left desc_step os d = d ++ fold_left desc_step os [].
Proof.
  assert (H1 : forall o d, desc_step d o = d ++ desc_step [] o) by (intros [ty p s|n] d; reflexivity).
  induction os as [|o os IH]; intros d; cbn [fold_left]; [rewrite app_nil_r; reflexivity|].
  rewrite IH, (IH (desc_step [] o)), (H1 o d), <- app_assoc. reflexivity.
Qed.
Lemma read_service_ok ty p s : read_service (ty :: len p :: p ++ len s :: s) = Some (ty, p, s).
Proof.
  unfold read_service, read_counted. rewrite len_app. pose proof (len_nonneg (len s :: s)). replace (len p <=? len p + len (len s :: s)) with true by lia.
  rewrite take_app, drop_app. replace (len s <=? len s) with true by lia. pose proof (take_app s []) as T. pose proof (drop_app s []) as D. rewrite app_nil_r in T, D. rewrite T, D. reflexivity.
Qed.
(** For every sequence of Service and NetworkName calls with names that fit. *)
Theorem C50_descriptors : forall os, Forall desc_fits os ->
  exists ds, read_descs (fold_left desc_step os new_descriptor) = Some ds /\ Forall2 desc_found os ds.
Proof.
  unfold new_descriptor. induction os as [|o os IH]; intros HF; [exists []; split; [reflexivity|constructor]|].
  inversion HF as [|? ? H1 H2]; subst. destruct (IH H2) as (ds & E & HD). cbn [fold_left]. rewrite desc_run_app.
  destruct o as [ty p s|n]; cbn [desc_fits] in H1; cbn [desc_step].
  - pose proof (len_nonneg p). pose proof (len_nonneg s). unfold desc_service. cbn [app].
    replace (u8 (len p)) with (len p) by (unfold u8; lia). replace (u8 (len s)) with (len s) by (unfold u8; lia).
    exists ((0x48, ty :: len p :: p ++ len s :: s) :: ds). split; [|constructor; [split; [reflexivity|apply read_service_ok]|exact HD]].
    replace (u8 (u8 (len p + len s) + 3)) with (len (ty :: len p :: p ++ len s :: s)) by (rewrite !len_cons, len_app, len_cons; unfold u8; lia).
    exact (read_descs_cons 0x48 (ty :: len p :: p ++ len s :: s) _ ds E).
  - pose proof (len_nonneg n). unfold desc_network_name. cbn [app]. replace (u8 (len n)) with (len n) by (unfold u8; lia).
    exists ((0x40, n) :: ds). split; [apply read_descs_cons, E|constructor; [split; reflexivity|exact HD]].
Qed.
Print Assumptions C50_descriptors.
Example C50_example : Forall desc_fits [DService 1 [65] [66; 67]; DName []; DName [68]] /\
  read_descs (fold_left desc_step [DService 1 [65] [66; 67]; DName []; DName [68]] []) = Some [(0x48, [1; 1; 65; 2; 66; 67]); (0x40, []); (0x40, [68])].
Proof. split; [repeat (apply Forall_cons; [vm_compute; discriminate|]); constructor|vm_compute; reflexivity]. Qed.

(** The length byte says 4 but 5 bytes follow, for every country; the descriptor alone cannot be read. *)
Theorem C51_country_refuted : forall available code, 0 <= code < 2 ^ 32 -> exists contents,
  desc_country new_descriptor available code = 0x49 :: 4 :: contents /\ len contents = 5 /\
  contents = [if available then 0x80 else 0; 0; 0; code / 256 mod 16; code mod 256] /\ read_descs (desc_country new_descriptor available code) = None.
Proof.
  intros av code Hc. eexists. split; [reflexivity|]. split; [reflexivity|]. split; [|reflexivity].
  change (Z.land code 4095) with (Z.land code (Z.ones 12)). rewrite Z.land_ones by lia. unfold be32, u8. change (2 ^ 12) with 4096.
  cbn [app]. repeat (f_equal; try lia).
Qed.
Print Assumptions C51_country_refuted.

(** ** C46, C47: audio synchronisation *)
(** Successive syncAudioTs calls on a fresh synchroniser of 10 ms: input and sample rate of each call. *)
Fixpoint sync_run (s : sync) (ins : list (Z * Z)) : res (list Z) :=
  match ins with
  | [] => Ok []
  | (dts, rate) :: ins' => let* (s', d) := sync_audio s dts rate in let* ds := sync_run s' ins' in Ok (d :: ds)
  end.
Definition sync_outputs (ins : list (Z * Z)) : res (list Z) := match new_sync 10 with Some s => sync_run s ins | None => Panic end.
Definition timestamp (t : Z) : Prop := 0 <= t < 2 ^ 32.

(** Rates up to 92160000 Hz, histories of any length. *)
Theorem C46_sync_gap : forall ins, Forall (fun i => timestamp (fst i) /\ 0 < snd i <= 92160000) ins ->
  exists outs, sync_outputs ins = Ok outs /\ Forall2 (fun i out => Z.abs (out - fst i) <= 900) ins outs.
Proof.
  intros ins HF. unfold sync_outputs. change (new_sync 10) with (Some (mkS 0 0 900)). assert (HI : sync_inv (mkS 0 0 900) 4294968197) by (unfold sync_inv; cbn; lia).
  revert HI. generalize (mkS 0 0 900). induction ins as [|[dts rate] ins IH]; intros s HI; [exists []; split; [reflexivity|constructor]|].
  inversion HF as [|? ? (H1 & H2) H3]; subst. cbn [fst snd] in *. unfold timestamp in H1. change (2 ^ 32) with 4294967296 in H1.
  destruct (sync_step_bounded s dts rate HI H1 H2) as (s' & d & E & E1 & E2). destruct (IH H3 s' E2) as (outs & E3 & E4).
  exists (d :: outs). cbn [sync_run]. rewrite E. cbn [bind]. rewrite E3. split; [reflexivity|]. constructor; [exact E1|exact E4].
Qed.
Print Assumptions C46_sync_gap.
(** Any positive rate, histories of fewer than 2^32 calls. *)
Theorem C46_sync_gap_any_rate : forall ins, Forall (fun i => timestamp (fst i) /\ 0 < snd i) ins -> Z.of_nat (length ins) < 2 ^ 32 ->
  exists outs, sync_outputs ins = Ok outs /\ Forall2 (fun i out => Z.abs (out - fst i) <= 900) ins outs.
Proof.
  intros ins HF HL. unfold sync_outputs. change (new_sync 10) with (Some (mkS 0 0 900)). change (2 ^ 32) with 4294967296 in HL.
  assert (G : forall ins s n, Forall (fun i => timestamp (fst i) /\ 0 < snd i) ins -> sync_inv s n -> 1 <= n -> n + Z.of_nat (length ins) <= 8589934592 ->
    exists outs, sync_run s ins = Ok outs /\ Forall2 (fun i out => Z.abs (out - fst i) <= 900) ins outs).
  { clear. induction ins as [|[dts rate] ins IH]; intros s n HF HI Hn HL; [exists []; split; [reflexivity|constructor]|].
    inversion HF as [|? ? (H1 & H2) H3]; subst. cbn [fst snd length] in *. unfold timestamp in H1. change (2 ^ 32) with 4294967296 in H1.
    destruct (sync_step_ok s n dts rate HI ltac:(lia) H1 H2) as (s' & d & E & E1 & E2 & _). destruct (IH s' (n + 1) H3 E2 ltac:(lia) ltac:(lia)) as (outs & E3 & E4).
    exists (d :: outs). cbn [sync_run]. rewrite E. cbn [bind]. rewrite E3. split; [reflexivity|]. constructor; [exact E1|exact E4]. }
  apply (G ins (mkS 0 0 900) 1); [exact HF|unfold sync_inv; cbn; lia|lia|lia].
Qed.
Print Assumptions C46_sync_gap_any_rate.
(** Through Mixer.Update, after any history: never a panic, and within 900 ticks of 90 times the packet's time (mod 2^32). *)
Theorem C46_mixer_gap : forall x p ms cts, mixer_used x -> p_type p = 1 ->
  exists x' r, mix_update x p ms cts = (x', r) /\ r <> Panic /\
    (r = Ok tt -> Z.abs (x_dts x' - (ms * 90) mod 2 ^ 32) <= 900 /\ x_pts x' = x_dts x').
Proof.
  intros x p ms cts Hx HT. destruct (mixer_ok x Hx) as (HM & HC & HS & _). unfold mix_update. rewrite HT. change (1 =? PktVideo) with false. change (1 =? PktAudio) with true. cbv iota.
  destruct (codec_rate (x_codec x)) as [rate|e| |] eqn:ER; [|eexists _, _; split; [reflexivity|split; [discriminate|discriminate]]|exfalso; unfold codec_rate in ER; destruct (cp_aac (x_codec x)), (cp_mp3 (x_codec x)); discriminate|exfalso; unfold codec_rate in ER; destruct (cp_aac (x_codec x)), (cp_mp3 (x_codec x)); discriminate].
  pose proof (codec_rate_range _ _ HC ER) as HR. destruct (sync_step_bounded (x_sync x) (u32 (ms * 90)) rate HS) as (s' & d & E & E1 & E2); [unfold u32; lia|lia|].
  rewrite E. eexists _, _. split; [reflexivity|]. split; [discriminate|]. intros _. cbn [set_times x_dts x_pts]. split; [exact E1|reflexivity].
Qed.
Print Assumptions C46_mixer_gap.
Example C46_example : Forall (fun i => timestamp (fst i) /\ 0 < snd i <= 92160000) [(0, 44100); (2070, 44100); (4140, 48000); (90000, 48000)] /\
  sync_outputs [(0, 44100); (2070, 44100); (4140, 48000); (90000, 48000)] = Ok [0; 2089; 3840; 90000].
Proof. split; [repeat (apply Forall_cons; [vm_compute; intuition congruence|]); constructor|reflexivity]. Qed.

(** Non-decreasing times (0, 14 and 14 ms at 44.1 kHz) can be sent out in decreasing order. *)
Theorem C47_monotone_refuted : sync_outputs [(0, 44100); (14 * 90, 44100); (14 * 90, 44100)] = Ok [0; 2089; 1260].
Proof. reflexivity. Qed.
Print Assumptions C47_monotone_refuted.
(** Nor is there a way out of it: after any history of times up to T, and at any rate up to 102400 Hz, there are later times that do not
    decrease and are sent out in decreasing order. *)
Theorem C47_monotone_never_refuted : forall ins r T, Forall (fun i => 0 <= fst i <= T /\ 0 < snd i <= 92160000) ins -> 0 < r <= 102400 -> 0 <= T <= 2 ^ 31 ->
  exists t1 t2 outs o, T <= t1 <= t2 /\ sync_outputs (ins ++ [(t1, r); (t2, r); (t2, r)]) = Ok (outs ++ [t1; o; t2]) /\ t2 < o.
Proof.
  intros ins r T HF Hr HT. change (2 ^ 31) with 2147483648 in HT. unfold sync_outputs. change (new_sync 10) with (Some (mkS 0 0 900)). assert (HI : sync_inv (mkS 0 0 900) 4294968197) by (unfold sync_inv; cbn; lia).
  revert HI. generalize (mkS 0 0 900). induction ins as [|[dts rate] ins IH]; intros s HI; cbn [app] in *.
  - destruct (quot_inc r ltac:(lia)) as (Q & _). assert (Q9 : 900 <= Z.quot 92160000 r) by (rewrite Z.quot_div_nonneg by lia; apply Z.div_le_lower_bound; lia).
    assert (X : exists t1, T <= t1 <= T + 2000 /\ 900 < Z.abs (s_dts s + s_num s * Z.quot 92160000 r - t1)).
    { destruct (Z_le_gt_dec (Z.abs (s_dts s + s_num s * Z.quot 92160000 r - T)) 900); [exists (T + 2000)|exists T]; lia. }
    destruct X as (t1 & X1 & X2). set (inc := Z.quot 92160000 r) in *. exists t1, (t1 + inc - 1), [], (t1 + inc). split; [lia|]. split; [|lia].
    pose proof (sync_step s _ t1 r HI ltac:(lia) ltac:(lia) ltac:(lia)) as F1. cbv zeta in F1. fold inc in F1. replace (Z.abs (s_dts s + s_num s * inc - t1) <=? 900) with false in F1 by lia.
    assert (I1 : sync_inv (mkS 1 t1 900) 4294968197) by (unfold sync_inv; cbn [s_dts s_num s_ms]; lia).
    pose proof (sync_step _ _ (t1 + inc - 1) r I1 ltac:(lia) ltac:(lia) ltac:(lia)) as F2. cbv zeta in F2. fold inc in F2. cbn [s_dts s_num s_ms] in F2. replace (Z.abs (t1 + 1 * inc - (t1 + inc - 1)) <=? 900) with true in F2 by lia.
    assert (I2 : sync_inv (mkS (1 + 1) t1 900) 4294968197) by (unfold sync_inv; cbn [s_dts s_num s_ms]; lia).
    pose proof (sync_step _ _ (t1 + inc - 1) r I2 ltac:(lia) ltac:(lia) ltac:(lia)) as F3. cbv zeta in F3. fold inc in F3. cbn [s_dts s_num s_ms] in F3. replace (Z.abs (t1 + (1 + 1) * inc - (t1 + inc - 1)) <=? 900) with false in F3 by lia.
    cbn [sync_run app]. rewrite F1. cbn [bind]. rewrite F2. cbn [bind]. rewrite F3. cbn [bind]. rewrite Z.mul_1_l. reflexivity.
  - inversion HF as [|? ? (H1 & H2) H3]; subst. cbn [fst snd] in *. destruct (sync_step_bounded s dts rate HI ltac:(lia) H2) as (s' & d & E & E1 & E2). destruct (IH H3 s' E2) as (t1 & t2 & outs & o & A & B & C).
    exists t1, t2, (d :: outs), o. split; [exact A|]. split; [|exact C]. cbn [sync_run]. rewrite E. cbn [bind]. rewrite B. reflexivity.
Qed.
Print Assumptions C47_monotone_never_refuted.
(** Missing: that they never decrease. Proved, after any history: at a steady rate a time that does not decrease gives an
    output that does not decrease, or one resynchronised to exactly the input and at most 900 ticks below; at any rates
    the output falls by at most 1800 ticks. *)
Theorem C47_monotone_partial : forall ins t1 t2 r1 r2, Forall (fun i => timestamp (fst i) /\ 0 < snd i <= 92160000) (ins ++ [(t1, r1); (t2, r2)]) -> t1 <= t2 ->
  exists outs o1 o2, sync_outputs (ins ++ [(t1, r1); (t2, r2)]) = Ok (outs ++ [o1; o2]) /\ o1 - 1800 <= o2 /\
    (r1 = r2 -> o1 <= o2 \/ (o2 = t2 /\ o1 - 900 <= o2)).
Proof.
  intros ins t1 t2 r1 r2 HF Ht. unfold sync_outputs. change (new_sync 10) with (Some (mkS 0 0 900)). assert (HI : sync_inv (mkS 0 0 900) 4294968197) by (unfold sync_inv; cbn; lia).
  revert HI. generalize (mkS 0 0 900). induction ins as [|[dts rate] ins IH]; intros s HI; cbn [app] in *.
  - inversion HF as [|? ? (A1 & A2) HF2]; subst. inversion HF2 as [|? ? (B1 & B2) _]; subst. cbn [fst snd] in *. unfold timestamp in *. change (2 ^ 32) with 4294967296 in *.
    destruct (sync_step_bounded s t1 r1 HI A1 A2) as (s1 & o1 & E1 & G1 & I1). destruct (sync_step_bounded s1 t2 r2 I1 B1 B2) as (s2 & o2 & E2 & G2 & I2).
    exists [], o1, o2. cbn [sync_run]. rewrite E1. cbn [bind]. rewrite E2. cbn [bind app]. split; [reflexivity|]. split; [lia|]. intros <-.
    pose proof (sync_step s _ t1 r1 HI ltac:(lia) A1 ltac:(lia)) as F1. pose proof (sync_step s1 _ t2 r1 I1 ltac:(lia) B1 ltac:(lia)) as F2. cbv zeta in F1, F2. rewrite E1 in F1. rewrite E2 in F2.
    destruct (quot_inc r1 ltac:(lia)) as (Q & _). set (inc := Z.quot 92160000 r1) in *.
    destruct (Z.abs (s_dts s1 + s_num s1 * inc - t2) <=? 900) eqn:EG; injection F2 as _ F2; [left|right; split; [exact F2|lia]].
    destruct (Z.abs (s_dts s + s_num s * inc - t1) <=? 900); injection F1 as F1 F1'; subst s1; cbn [s_dts s_num] in *; lia.
  - inversion HF as [|? ? (H1 & H2) H3]; subst. cbn [fst snd] in *. unfold timestamp in H1. change (2 ^ 32) with 4294967296 in H1.
    destruct (sync_step_bounded s dts rate HI H1 H2) as (s' & d & E & E1 & E2). destruct (IH H3 s' E2) as (outs & o1 & o2 & E3 & E4).
    exists (d :: outs), o1, o2. cbn [sync_run]. rewrite E. cbn [bind]. rewrite E3. split; [reflexivity|exact E4].
Qed.
Print Assumptions C47_monotone_partial.

(** ** C48: Update *)
(** Every time from 47721859 ms (13.3 hours) on: the decoding time has been reduced mod 2^32. *)
Theorem C48_update_refuted : forall x p ms cts, mixer_used x -> p_type p = 0 -> 47721859 <= ms < 2 ^ 32 ->
  snd (mix_update x p ms cts) = Ok tt /\ x_dts (fst (mix_update x p ms cts)) = (90 * ms) mod 2 ^ 32 /\ x_dts (fst (mix_update x p ms cts)) <> 90 * ms.
Proof.
  intros x p ms cts _ HT HL. unfold mix_update. rewrite HT. change (0 =? PktVideo) with true. cbv iota. cbn [fst snd set_times x_dts]. unfold u32. change (2 ^ 32) with 4294967296 in *.
  replace (ms * 90) with (90 * ms) by lia. split; [reflexivity|]. split; [reflexivity|]. lia.
Qed.
Print Assumptions C48_update_refuted.
(** Missing: later times. Proved: earlier ones, video (exactly, with the composition time) and audio (C46's margin). *)
Theorem C48_update_partial : forall x p ms cts, mixer_used x -> 0 <= ms -> 90 * ms < 2 ^ 32 -> 0 <= cts -> 90 * cts < 2 ^ 32 ->
  let x' := fst (mix_update x p ms cts) in
  (p_type p = 0 -> snd (mix_update x p ms cts) = Ok tt /\ x_dts x' = 90 * ms /\ x_pts x' = 90 * (ms + cts)) /\
  (p_type p = 1 -> snd (mix_update x p ms cts) = Ok tt -> Z.abs (x_dts x' - 90 * ms) <= 900 /\ x_pts x' = x_dts x').
Proof.
  intros x p ms cts Hx H1 H2 H3 H4. split; intros HT.
  - unfold mix_update. rewrite HT. change (0 =? PktVideo) with true. cbv iota zeta. cbn [fst snd set_times x_dts x_pts]. unfold u32. change (2 ^ 32) with 4294967296 in *. split; [reflexivity|]. lia.
  - intros HR. destruct (C46_mixer_gap x p ms cts Hx HT) as (x' & r & E & _ & H). rewrite E in *. cbn [fst snd] in *. specialize (H HR).
    replace ((ms * 90) mod 2 ^ 32) with (90 * ms) in H by (change (2 ^ 32) with 4294967296 in *; lia). exact H.
Qed.
Print Assumptions C48_update_partial.
Example C48_example : mixer_used new_tsmix /\ 47721859 * 90 = 2 ^ 32 + 14 /\ 90 * 47721858 < 2 ^ 32.
Proof. split; [exists [], buffer0, buffer0, []; reflexivity|]. split; reflexivity. Qed.

(** ** C35: SaveMetadata, then SetTsHeader *)
Lemma map_str_in k md n d : NoDup (map fst md) -> In (k, VStr n) md -> map_str k md d = n.
Proof.
  induction md as [|[k' v] md IH]; [intros _ []|]; intros HN [H|H]; inversion HN; subst; cbn [map_str fst] in *.
  - injection H as -> ->. rewrite bytes_eqb_refl. reflexivity.
  - destruct (bytes_eqb k k') eqn:E; [|apply IH; assumption]. apply bytes_eqb_eq in E. subst k'. exfalso. match goal with X : ~ In k _ |- _ => apply X end. apply (in_map fst) in H. exact H.
Qed.
Lemma map_str_none k d : forall md, (forall s, ~ In (k, VStr s) md) -> map_str k md d = d.
Proof.
  induction md as [|[k' v] md IH]; intros H; cbn [map_str]; [reflexivity|]. destruct (bytes_eqb k k') eqn:E; [apply bytes_eqb_eq in E; subst k'|apply IH; intros s X; apply (H s); right; exact X].
  destruct v as [| | |s| | | | | | |]; try reflexivity. exfalso. apply (H s). left. reflexivity.
Qed.
Lemma name_in_str md k n : NoDup (map fst md) -> name_in md k n -> map_str k md (str "undefined") = n.
Proof. intros HN [H|[-> H]]; [apply map_str_in; assumption|apply map_str_none, H]. Qed.
Definition provider_of (md : omap) : bytes := map_str (str "Provider") md (str "undefined").
Definition service_of (md : omap) : bytes := map_str (str "Service") md (str "undefined").
Lemma service_len ty p s : len (desc_service [] ty p s) = 5 + len p + len s.
Proof. unfold desc_service. cbn [app]. rewrite !len_cons, len_app, len_cons. lia. Qed.
(** Names of more than 158 bytes together: SetTsHeader panics, whatever happened before. *)
Theorem C35_metadata_refuted : forall x md provider service w, mixer_used x -> NoDup (map fst md) ->
  name_in md (str "Provider") provider -> name_in md (str "Service") service -> 158 < len provider + len service ->
  snd (mix_save_metadata x md) = Ok tt /\ snd (snd (mix_set_header (fst (mix_save_metadata x md)) w)) = Panic.
Proof.
  intros x md provider service w Hx HN HP HS HL. apply (name_in_str _ _ _ HN) in HP, HS. fold (provider_of md) in HP. fold (service_of md) in HS. subst provider service.
  split; [reflexivity|]. rewrite set_header_tables. destruct (mixer_ok x Hx) as (HM & _).
  destruct (tables_panic (fst (mix_save_metadata x md)) HM) as (k & E); [|rewrite E; reflexivity].
  cbn [fst mix_save_metadata set_meta x_meta]. rewrite service_len. fold (provider_of md) (service_of md). lia.
Qed.
Print Assumptions C35_metadata_refuted.
(** Missing: those. Proved: otherwise SDT, PAT and PMT are written, and the SDT names the provider and the service. *)
Theorem C35_metadata_partial : forall x md provider service w, mixer_used x -> NoDup (map fst md) ->
  name_in md (str "Provider") provider -> name_in md (str "Service") service ->
  len provider + len service <= 158 -> is_bytes provider -> is_bytes service -> never_fails w ->
  exists x' w' out sdt pat pmt b1 b2 b3 pcr desc c, mix_set_header (fst (mix_save_metadata x md)) w = (x', (w', Ok tt)) /\
    w_out w' = w_out w ++ out /\ read_stream out = Some [sdt; pat; pmt] /\ ts_pid sdt = 0x11 /\ ts_pid pat = 0 /\ ts_pid pmt = 0x1001 /\
    read_section (ts_payload sdt) = Some (0x42, 17 + len desc, b1) /\ read_sdt b1 = Some (1, 0xff01, 1, desc) /\
    read_descs desc = Some [(0x48, c)] /\ read_service c = Some (1, provider, service) /\
    read_section (ts_payload pat) = Some (0, 13, b2) /\ read_pat b2 = Some (1, [(1, 0x1001)]) /\
    read_section (ts_payload pmt) = Some (2, 13 + 5 * len (media_entries (types_to_slice (x_types x))), b3) /\
    read_pmt b3 = Some (1, pcr, media_entries (types_to_slice (x_types x))).
Proof.
  intros x md provider service w Hx HN HP HS HL HB1 HB2 HW. apply (name_in_str _ _ _ HN) in HP, HS. fold (provider_of md) in HP. fold (service_of md) in HS. subst provider service.
  rewrite set_header_tables. destruct (mixer_ok x Hx) as (HM & _). pose proof (len_nonneg (provider_of md)) as P0. pose proof (len_nonneg (service_of md)) as S0.
  set (x1 := fst (mix_save_metadata x md)). assert (EM : x_meta x1 = desc_service [] 1 (provider_of md) (service_of md)) by reflexivity.
  assert (HLm : len (x_meta x1) <= 163) by (rewrite EM, service_len; lia).
  destruct (tables_ok x1 HM HLm) as (k & s & a & b & ps & pa & pb & ba & bb & E & K & S1 & A1 & P1 & S2 & A2 & A3 & P2 & P3 & _). rewrite E. rewrite run_plan_ok by exact HW.
  assert (HB : is_bytes (x_meta x1)).
  { rewrite EM. unfold desc_service. cbn [app]. repeat (apply Forall_cons; [unfold byte, u8; lia|]). apply is_bytes_app. split; [exact HB1|]. apply Forall_cons; [unfold byte, u8; lia|exact HB2]. }
  destruct (S2 HB) as (b1 & S3 & S4). destruct (C50_descriptors [DService 1 (provider_of md) (service_of md)]) as (ds & D1 & D2); [apply Forall_cons; [cbn [desc_fits]; lia|constructor]|].
  destruct ds as [|[tag c] [|? ?]]; try (exfalso; inversion D2; subst; match goal with H : Forall2 _ [] (_ :: _) |- _ => inversion H end). assert (D3 : desc_found (DService 1 (provider_of md) (service_of md)) (tag, c)) by (inversion D2; assumption).
  destruct D3 as (D3 & D4). cbn [fst snd] in *. subst tag.
  eexists _, _, _, _, _, _, b1, ba, bb, _, (x_meta x1), c. split; [reflexivity|]. split; [reflexivity|]. split.
  - cbn [concat]. rewrite app_nil_r. replace (s ++ a ++ b) with (s ++ a ++ b ++ []) by (rewrite app_nil_r; reflexivity).
    apply read_stream_cons; [eapply read_packet_len, S1|exact S1|]. apply read_stream_cons; [eapply read_packet_len, A1|exact A1|]. apply read_stream_cons; [eapply read_packet_len, P1|exact P1|]. reflexivity.
  - repeat (split; [first [reflexivity|eassumption]|]). exact P3.
Qed.
Print Assumptions C35_metadata_partial.
Example C35_example : name_in [(str "Provider", VNum 0); (str "Service", VStr [65])] (str "Provider") (str "undefined") /\
  name_in [(str "Provider", VNum 0); (str "Service", VStr [65])] (str "Service") [65] /\ name_in [] (str "Service") (str "undefined") /\
  name_in [(str "Provider", VStr (repeat 65 158))] (str "Provider") (repeat 65 158) /\ 158 < len (repeat 65 158) + len (str "undefined") /\
  len (str "undefined") + len [65] <= 158.
Proof.
  split; [right; split; [reflexivity|]; intros s [H|[H|[]]]; discriminate H|]. split; [left; right; left; reflexivity|]. split; [right; split; [reflexivity|intros s []]|]. split; [left; left; reflexivity|].
  split; vm_compute; congruence.
Qed.

(** ** C49: continuity through a Mixer *)
(** Missing: histories with SaveAVCHeader or SaveAACHeader, and the SDT. Proved, from any state: every sequence of Mux,
    SaveMetadata, SetTsHeader and Update calls without a panic writes packets whose counters follow each other on the
    video, audio, PAT and PMT PIDs; PCRs are on the video PID only. *)
Definition no_header_saved (o : mix_op) : Prop := match o with XSaveAVC _ | XSaveAAC _ | XSetWriter _ => False | _ => True end.
Theorem C49_mixer_continuity_partial : forall x os w x' w' rs, mixer_used x -> Forall no_header_saved os -> never_fails w ->
  mix_run (x, w) os = (x', w', rs) -> ~ In Panic rs ->
  exists out pkts, w_out w' = w_out w ++ out /\ read_stream out = Some pkts /\
    Forall (fun q => In (ts_pid q) [0; 0x11; 0x100; 0x101; 0x1001]) pkts /\
    Forall (fun q => ts_pid q <> 0x100 -> packet_pcr q = Some None) pkts /\
    continuous ((tm_vcc (x_muxer x) + 1) mod 16) (on_pid 0x100 pkts) /\
    continuous ((tm_acc (x_muxer x) + 1) mod 16) (on_pid 0x101 pkts) /\
    (exists c, continuous c (on_pid 0 pkts)) /\ (exists c, continuous c (on_pid 0x1001 pkts)) /\
    Forall (fun q => ts_cc q = 0) (on_pid 0x11 pkts).
Proof.
  intros x os w x' w' rs Hx HQ HW E HN. pose proof (mix_run_sent os x w (mixer_ok x Hx) HQ HW) as H. rewrite E in H.
  destruct (H HN) as (out & l & E1 & _ & E2 & [(S1 & _) (S2 & _) (S3 & _) (S4 & _) S5 S6 S7]). exists out, l.
  repeat (split; [first [assumption|eexists; eassumption]|]). exact S5.
Qed.
Print Assumptions C49_mixer_continuity_partial.
(** SetTsHeader twice: the two SDT packets have the same counter. And a saved AAC header between two audio frames leaves a
    gap in the counters of the audio PID. *)
Lemma mix_mux_audio x p w x' p' w' : mix_inv x -> never_fails w -> p_type p = 1 -> mix_mux x p w = (x', p', (w', Ok tt)) ->
  mix_inv x' /\ never_fails w' /\ exists out p0 l, w_out w' = w_out w ++ out /\ read_stream out = Some (p0 :: l) /\ Forall (fun q => ts_pid q = 0x101) (p0 :: l) /\
    continuous ((tm_acc (x_muxer x) + 1) mod 16) (p0 :: l) /\ tm_acc (x_muxer x') = (tm_acc (x_muxer x) + len (p0 :: l)) mod 16.
Proof.
  intros HI HW HT E. pose proof (mix_step_inv x w (XMux p) HI) as HI'. cbn [mix_step] in HI'. rewrite E in HI'. split; [exact HI'|]. pose proof HI as (HM & _).
  rewrite mux_result in E. destruct (codec_parse (x_codec x) p buffer0) as [c [wc r]]. destruct r as [u| | |]; try discriminate.
  set (q := set_media (w_out wc) p) in *. assert (HC : can_mux q) by (left; exact HT). assert (HK : is_key q = false) by (unfold is_key, q; cbn [set_media p_type]; rewrite HT; reflexivity).
  destruct (mux_frame (x_muxer x) q (x_dts x) (x_pts x) w HM HC) as (m' & w2 & o & p0 & l & E0 & E1 & E2 & E3 & E4 & E5 & E6 & E7 & E8 & E9 & _ & _ & E12 & _); [rewrite HK; discriminate|exact HW|].
  rewrite E0 in E. inversion E; subst. split; [exact E2|]. exists o, p0, l. split; [exact E1|]. split; [exact E3|].
  assert (HTq : p_type q = 1) by exact HT. unfold pid_of, lo_of, cc_of in *. rewrite HTq in *. split; [exact E4|]. split; [exact E5|exact E12].
Qed.
Lemma save_aac_bumps x p x' p' : mix_inv x -> p_type p = 1 -> route_of p = RAac 0 (match p_media p with Some b => b | None => [] end) -> mix_save_aac x p = (x', p', Ok tt) ->
  mix_inv x' /\ tm_acc (x_muxer x') = (tm_acc (x_muxer x) + 1) mod 16.
Proof.
  intros HI HT HR E. pose proof (mix_step_inv x buffer0 (XSaveAAC p) HI) as HI'. cbn [mix_step] in HI'. rewrite E in HI'. split; [exact HI'|]. pose proof HI as (HM & _).
  unfold mix_save_aac, mix_save_header, mix_parse in E. cbn [x_codec set_types] in E. rewrite codec_parse_route, HR in E.
  destruct (aac_parse (or_new (cp_aac (x_codec x)) new_aac) (match p_media p with Some b => b | None => [] end) 0 buffer0) as [a [w1 r1]] eqn:EA.
  destruct r1 as [u| | |]; try discriminate. assert (w1 = buffer0) as ->.
  { unfold aac_parse in EA. change (0 =? 0) with true in EA. destruct (_ =? 0) in EA; [inversion EA; reflexivity|]. destruct (specific_info _ _). inversion EA. reflexivity. }
  set (q := set_media (w_out buffer0) p) in *. assert (HC : can_mux q) by (left; exact HT). assert (HK : is_key q = false) by (unfold is_key, q; cbn [set_media p_type]; rewrite HT; reflexivity).
  cbn [x_muxer set_codec set_types] in E.
  destruct (mux_frame (x_muxer x) q 0 0 buffer0 HM HC) as (m' & w2 & o & p0 & l & E0 & E1 & E2 & E3 & E4 & E5 & E6 & E7 & E8 & E9 & _ & _ & E12 & _ & E14); [rewrite HK; discriminate|intros n; reflexivity|].
  rewrite E0 in E. inversion E; subst. cbn [set_muxer x_muxer]. assert (HTq : p_type q = 1) by exact HT. unfold cc_of in E12. rewrite HTq in E12. change (1 =? PktVideo) with false in E12. cbv iota in E12.
  rewrite E12, E14, HK. rewrite total_len by (right; exact HT). unfold pes_total. rewrite HTq. reflexivity.
Qed.
Theorem C49_mixer_continuity_refuted : forall x h p1 p2 w x1 w1, mixer_used x -> never_fails w ->
  p_type p1 = 1 -> p_type p2 = 1 -> p_type h = 1 -> route_of h = RAac 0 (match p_media h with Some b => b | None => [] end) ->
  mix_run (x, w) [XMux p1; XSaveAAC h; XMux p2] = (x1, w1, [Ok tt; Ok tt; Ok tt]) ->
  exists out pkts, w_out w1 = w_out w ++ out /\ read_stream out = Some pkts /\ on_pid 0x101 pkts = pkts /\ forall c, ~ continuous c pkts.
Proof.
  intros x h p1 p2 w x1 w1 Hx HW T1 T2 TH HR E. pose proof (mixer_ok x Hx) as HI. cbn [mix_run mix_step] in E.
  destruct (mix_mux x p1 w) as [[xa pa] [wa ra]] eqn:EA. cbn [mix_run mix_step] in E. destruct (mix_save_aac xa h) as [[xb pb] rb] eqn:EB. cbn [mix_run mix_step] in E. destruct (mix_mux xb p2 wa) as [[xc pc] [wc rc]] eqn:EC.
  injection E as -> -> -> -> ->. destruct (mix_mux_audio _ _ _ _ _ _ HI HW T1 EA) as (HIa & HWa & o1 & q1 & l1 & A1 & A2 & A3 & A4 & A5).
  destruct (save_aac_bumps _ _ _ _ HIa TH HR EB) as (HIb & B1). destruct (mix_mux_audio _ _ _ _ _ _ HIb HWa T2 EC) as (_ & _ & o2 & q2 & l2 & C1 & C2 & C3 & C4 & C5).
  exists (o1 ++ o2), ((q1 :: l1) ++ (q2 :: l2)). split; [rewrite C1, A1, app_assoc; reflexivity|]. split; [apply read_stream_app; assumption|].
  split; [apply on_pid_all, Forall_app; split; assumption|]. intros c HC.
  assert (G : forall l c0 c1 q r, continuous (c0 mod 16) l -> continuous c1 (l ++ q :: r) -> l <> [] -> ts_cc q = (c0 + len l) mod 16).
  { clear. induction l as [|y l IH]; intros c0 c1 q r H1 H2 Hn; [congruence|]. cbn [continuous app] in *. destruct H1 as (H1 & H3). destruct H2 as (H2 & H4). rewrite Zplus_mod_idemp_l in H3. rewrite len_cons.
    destruct l as [|z l]; [cbn [app continuous] in H4; destruct H4 as (H4 & _); change (len []) with 0; rewrite H4, <- H2, H1, Zplus_mod_idemp_l; f_equal; lia|].
    rewrite (IH (c0 + 1) _ q r H3 H4) by discriminate. f_equal. lia. }
  pose proof (G _ _ _ _ _ A4 HC ltac:(discriminate)) as H1. cbn [continuous] in C4. destruct C4 as (C4 & _). rewrite C4, B1, A5 in H1. rewrite !len_cons in H1. pose proof (len_nonneg l1). lia.
Qed.
Print Assumptions C49_mixer_continuity_refuted.
Definition ex_aac (t : Z) (b : bytes) : packet := mkP 1 0 0 0 (Some (mkH None (Some (mkAH 10 t true false (t =? 0))))) [] (Some b).
Example C49_example : exists x w' rs, mix_run (new_tsmix, buffer0) [XSaveAAC (ex_aac 0 [0x12; 0x10])] = (x, w', rs) /\
  route_of (ex_aac 0 [0x12; 0x10]) = RAac 0 [0x12; 0x10] /\
  exists x1 w1, mix_run (x, buffer0) [XMux (ex_aac 1 [1; 2]); XSaveAAC (ex_aac 0 [0x12; 0x10]); XMux (ex_aac 1 [3])] = (x1, w1, [Ok tt; Ok tt; Ok tt]).
Proof. eexists _, _, _. split; [vm_compute; reflexivity|]. split; [reflexivity|]. eexists _, _. vm_compute. reflexivity. Qed.

(** ** C102, C103, C105: what a Mixer makes of a packet *)
(** The PES packet that Mux of a packet writes. *)
Definition mixer_pes (x : tsmix) (p : packet) (w : writer) (pid : Z) (e : pes) : Prop :=
  exists x' p' w' out pkts, mix_mux x p w = (x', p', (w', Ok tt)) /\ w_out w' = w_out w ++ out /\ read_stream out = Some pkts /\
    Forall (fun q => ts_pid q = pid) pkts /\ read_pes (concat (map ts_payload pkts)) = Some e.
Lemma mixer_pes_ok x p pid key w c wc : mixer_used x -> frame p pid key -> never_fails w ->
  codec_parse (x_codec x) p buffer0 = (c, (wc, Ok tt)) -> (key = true -> 184 <= 14 + len (w_out wc)) ->
  exists n, mixer_pes x p w pid (mkPes (if p_type p =? 0 then 0xe0 else 0xc0) n (Some (2, x_pts x))
     (if (p_type p =? 0) && negb (x_pts x =? x_dts x) then Some (3, x_dts x) else None) (w_out wc)).
Proof.
  intros Hx HF HW EC HK. destruct (frame_can _ _ _ HF) as (HC & EK & EP & HT). destruct (mixer_ok x Hx) as (HM & _ & _ & HD & HPt & _).
  set (q := set_media (w_out wc) p). assert (HTq : p_type q = PktVideo \/ p_type q = PktAudio) by exact HT.
  assert (HTot : key = true -> 184 <= pes_total q (x_dts x) (x_pts x)) by (intros H; specialize (HK H); unfold pes_total; change (media_of q) with (w_out wc); destruct (_ && _); lia).
  destruct (mux_frame (x_muxer x) q (x_dts x) (x_pts x) w HM) as (m' & w' & o & p0 & l & E & E1 & E2 & E3 & E4 & E5 & E6 & E7 & E8 & E9 & _).
  { apply set_media_can, HC. } { unfold q at 1. rewrite set_media_key, EK, total_len by exact HTq. lia. } { exact HW. }
  unfold q at 1 in E9. rewrite set_media_key, EK, total_len in E9 by exact HTq.
  assert (EN : key && (pes_total q (x_dts x) (x_pts x) <? 184) = false) by (destruct key; [specialize (HTot eq_refl); cbn [andb]; lia|reflexivity]). rewrite EN in E9. cbn [app] in E9.
  eexists. unfold mixer_pes. rewrite mux_result, EC. fold q. rewrite E. eexists _, _, w', o, (p0 :: l). split; [reflexivity|]. split; [exact E1|]. split; [exact E3|].
  split; [unfold pid_of, lo_of in *; exact (eq_ind _ (fun z => Forall (fun q => ts_pid q = z) (p0 :: l)) E4 _ EP)|]. rewrite E9. unfold mux_bytes. rewrite read_pes_ok by exact HTq. rewrite !stamp_small by assumption. reflexivity.
Qed.

(** An MP3 frame a Mixer accepts comes out as an audio PES packet without payload: the audio is lost. *)
Theorem C102_mp3_dropped_refuted : forall x p ah media w, mixer_used x -> never_fails w -> p_type p = 1 ->
  audio_of p = Some ah -> a_aac ah = false -> a_mp3 ah = true -> p_media p = Some media -> 3 <= len media -> at_ media 2 / 2 mod 4 < 3 ->
  exists e, mixer_pes x p w 0x101 e /\ pes_payload e = [].
Proof.
  intros x p ah media w Hx HW HT HA H1 H2 HMe HL HI.
  assert (EC : exists c, codec_parse (x_codec x) p buffer0 = (c, (buffer0, Ok tt))).
  { rewrite codec_parse_route. unfold route_of. unfold audio_of in HA. destruct (p_header p) as [h|]; [|discriminate]. rewrite HMe, HT. change (1 =? PktVideo) with false. change (1 =? PktAudio) with true. cbv iota.
    rewrite HA, H1, H2. unfold mp3_parse. replace (len media <? 3) with false by lia. rewrite (land_mask _ 2), shiftr_div by lia. change (2 ^ 2) with 4. change (2 ^ 1) with 2. change (len mp3_rates) with 3.
    replace (at_ media 2 / 2 mod 4 <? 3) with true by lia. eexists. reflexivity. }
  destruct EC as (c & EC). destruct (mixer_pes_ok x p 0x101 false w c buffer0 Hx) as (n & E); [left; repeat split; exact HT|exact HW|exact EC|discriminate|].
  eexists. split; [exact E|reflexivity].
Qed.
Print Assumptions C102_mp3_dropped_refuted.
Example C102_example : exists e, mixer_pes new_tsmix (mkP 1 0 0 0 (Some (mkH None (Some (mkAH 2 0 false true false)))) [] (Some [0xff; 0xfb; 0x90; 0; 1; 2; 3])) buffer0 0x101 e /\ pes_payload e = [].
Proof. eapply C102_mp3_dropped_refuted; try reflexivity; [exists [], buffer0, buffer0, []; reflexivity|intros n; reflexivity|vm_compute; discriminate]. Qed.

(** The packets a history has sent through the codec parser. *)
Definition parsed (os : list mix_op) : list (packet * writer) :=
  flat_map (fun o => match o with XMux p | XSaveAVC p | XSaveAAC p => [(p, buffer0)] | _ => [] end) os.
Lemma parsed_app a b : parsed (a ++ b) = parsed a ++ parsed b. Proof. apply flat_map_app. Qed.
Lemma aac_ops_app2 a b : aac_ops (a ++ b) = aac_ops a ++ aac_ops b. Proof. apply flat_map_app. Qed.
(** End to end, AAC: after a configuration, in any history without a newer one, a raw frame comes out as an ADTS frame. *)
Theorem C103_aac_end_to_end : forall os1 o os2 w0 x w1 rs pc b0 b1 cfg ot i ch p raw w,
  mix_run (new_tsmix, w0) (os1 ++ o :: os2) = (x, w1, rs) -> parsed [o] = [(pc, buffer0)] -> route_of pc = RAac 0 (b0 :: b1 :: cfg) ->
  byte b0 -> byte b1 -> config_bits b0 b1 = (ot, i, ch) -> 1 <= ot <= 4 -> i <= 12 -> ch <= 7 -> Forall no_config (aac_ops (parsed os2)) ->
  route_of p = RAac 1 raw -> 1 <= len raw <= 8184 -> never_fails w ->
  exists e header, mixer_pes x p w 0x101 e /\ pes_sid e = 0xc0 /\ pes_pts e = Some (2, x_pts x) /\ pes_dts e = None /\ pes_payload e = header ++ raw /\ len header = 7 /\
    read_adts (header ++ raw) = Some (mkAdts 4095 0 0 1 (ot - 1) i 0 ch 0 0 0 0 (7 + len raw) 2047 0, raw).
Proof.
  intros os1 o os2 w0 x w1 rs pc b0 b1 cfg ot i ch p raw w E HO HR B0 B1 HC Ho Hi Hch HN HRp HL HW.
  assert (HT : p_type p = 1).
  { unfold route_of in HRp. destruct (p_header p) as [h|]; [|discriminate]. destruct (p_media p); [|discriminate]. destruct (p_type p =? PktVideo); [destruct (h_video h) as [v|]; [destruct (v_avc v)|]; discriminate|].
    destruct (Z.eqb_spec (p_type p) PktAudio) as [H|H]; [exact H|discriminate]. }
  pose proof (mix_run_codec (os1 ++ o :: os2) new_tsmix w0) as HCd. rewrite E in HCd. cbn [fst] in HCd. change (mix_packets (os1 ++ o :: os2)) with (parsed (os1 ++ [o] ++ os2)) in HCd. cbn [x_codec new_tsmix] in HCd.
  rewrite !parsed_app, HO in HCd. destruct (codec_run_state (parsed os1 ++ [(pc, buffer0)] ++ parsed os2) new_codec) as (_ & EA & _). rewrite <- HCd in EA. cbn [cp_aac new_codec or_new] in EA.
  rewrite !aac_ops_app2 in EA. assert (EO : aac_ops [(pc, buffer0)] = [(b0 :: b1 :: cfg, 0, buffer0)]) by (unfold aac_ops; cbn [flat_map fst snd]; rewrite HR; reflexivity). rewrite EO in EA. cbn [app] in EA.
  destruct (aac_ops (parsed os1) ++ (b0 :: b1 :: cfg, 0, buffer0) :: aac_ops (parsed os2)) as [|y ys] eqn:EY; [destruct (aac_ops (parsed os1)); discriminate|]. rewrite <- EY in EA. clear EY y ys.
  destruct (C15_adts_header (aac_ops (parsed os1)) b0 b1 cfg buffer0 (aac_ops (parsed os2)) ot i ch raw buffer0 B0 B1 HN HC Ho Hi Hch HL) as (header & wc & EP & EW & EL & ER); [intros n; reflexivity|].
  assert (ECd : exists c, codec_parse (x_codec x) p buffer0 = (c, (wc, Ok tt))).
  { rewrite codec_parse_route, HRp, EA. cbn [or_new]. rewrite EP. eexists. reflexivity. }
  destruct ECd as (c & ECd). destruct (mixer_pes_ok x p 0x101 false w c wc) as (n & EM); [eexists _, _, _, _; exact E|left; repeat split; exact HT|exact HW|exact ECd|discriminate|].
  eexists _, header. split; [exact EM|]. cbn [pes_sid pes_pts pes_dts pes_payload]. rewrite HT. split; [reflexivity|]. split; [reflexivity|]. split; [reflexivity|]. split; [exact EW|]. split; [exact EL|exact ER].
Qed.
Print Assumptions C103_aac_end_to_end.
Example C103_example : exists x w1 rs, mix_run (new_tsmix, buffer0) ([] ++ XSaveAAC (ex_aac 0 [0x12; 0x10]) :: [XHeader]) = (x, w1, rs) /\
  route_of (ex_aac 0 [0x12; 0x10]) = RAac 0 [0x12; 0x10] /\ config_bits 0x12 0x10 = (2, 4, 2) /\ aac_ops (parsed [XHeader]) = [] /\ route_of (ex_aac 1 [9; 9]) = RAac 1 [9; 9].
Proof. eexists _, _, _. split; [vm_compute; reflexivity|]. repeat split. Qed.

(** End to end, H.264: the payload is the Annex B conversion of the units, with the parameter sets the history has sent. *)
Theorem C103_h264_end_to_end : forall os w0 x w1 rs cached p nals out key w,
  mix_run (new_tsmix, w0) os = (x, w1, rs) -> Forall (fun q => is_bytes (fst (fst q))) (avc_ops (parsed os)) -> remembers (avc_ops (parsed os)) cached ->
  frame p 0x100 key -> route_of p = RAvc false (avcc nals) -> nals <> [] -> Forall good_nal nals -> Forall (fun n => is_supported n = true) nals ->
  (forall n ns, nals = n :: ns -> len n <> 1) -> converts cached nals out -> (key = true -> 184 <= 14 + len out) -> never_fails w ->
  exists e, mixer_pes x p w 0x100 e /\ pes_sid e = 0xe0 /\ pes_pts e = Some (2, x_pts x) /\ pes_payload e = out.
Proof.
  intros os w0 x w1 rs cached p nals out key w E HB HR HF HRp Hn HG HS H1 HCv HK HW.
  pose proof (mix_run_codec os new_tsmix w0) as HCd. rewrite E in HCd. cbn [fst] in HCd. change (mix_packets os) with (parsed os) in HCd. cbn [x_codec new_tsmix] in HCd.
  destruct (codec_run_state (parsed os) new_codec) as (EA & _ & _). rewrite <- HCd in EA. change (or_new (cp_h264 new_codec) new_h264) with new_h264 in EA.
  destruct (C21_avcc_to_annexb (avc_ops (parsed os)) _ cached nals buffer0 (conj HB (eq_sym EA)) HR Hn HG HS H1) as (p' & wc & out' & EP & EW & EC); [intros n; reflexivity|].
  cbn [w_out buffer0 app] in EW. assert (out' = out) as -> by (eapply C21_conversion_unique; eassumption).
  assert (ECd : exists c, codec_parse (x_codec x) p buffer0 = (c, (wc, Ok tt))). { rewrite codec_parse_route, HRp, EP. eexists. reflexivity. }
  destruct ECd as (c & ECd). destruct (mixer_pes_ok x p 0x100 key w c wc) as (n & EM); [eexists _, _, _, _; exact E|exact HF|exact HW|exact ECd|rewrite EW; exact HK|].
  eexists. split; [exact EM|]. cbn [pes_sid pes_pts pes_payload]. destruct HF as [(_ & H & _)|(HT & _)]; [discriminate|]. rewrite HT. split; [reflexivity|]. split; [reflexivity|exact EW].
Qed.
Print Assumptions C103_h264_end_to_end.

(** Update, then Mux: the timestamps a video frame carries, for times below 13.3 hours. *)
Theorem C105_update_then_mux : forall x p q ms cts key w c wc, mixer_used x -> p_type q = 0 -> 0 <= ms -> 90 * ms < 2 ^ 32 -> 0 <= cts -> 90 * cts < 2 ^ 32 ->
  frame p 0x100 key -> codec_parse (x_codec x) p buffer0 = (c, (wc, Ok tt)) -> (key = true -> 184 <= 14 + len (w_out wc)) -> never_fails w ->
  exists e, mixer_pes (fst (mix_update x q ms cts)) p w 0x100 e /\ option_map snd (pes_pts e) = Some (90 * (ms + cts)) /\
    option_map snd (pes_dts e) = (if cts =? 0 then None else Some (90 * ms)) /\ pes_payload e = w_out wc.
Proof.
  intros x p q ms cts key w c wc Hx HTq H1 H2 H3 H4 HF EC HK HW. destruct (C48_update_partial x q ms cts Hx H1 H2 H3 H4) as (HV & _). destruct (HV HTq) as (R & ED & EP).
  assert (Hx' : mixer_used (fst (mix_update x q ms cts))).
  { destruct Hx as (os & w0 & w1 & rs & E). assert (G : forall os s x1 w1 rs o, mix_run s os = (x1, w1, rs) -> exists w2 rs2, mix_run s (os ++ [o]) = (fst (fst (mix_step (x1, w1) o)), w2, rs2)).
    { clear. induction os as [|o1 os IH]; intros s x1 w1 rs o E; cbn [mix_run app] in *; [inversion E; subst; destruct (mix_step (x1, w1) o) as [[x2 w2] r]; eexists _, _; reflexivity|].
      destruct (mix_step s o1) as [s1 r1]. destruct (mix_run s1 os) as [[x2 w2] rs2] eqn:E2. inversion E; subst. destruct (IH _ _ _ _ o E2) as (w3 & rs3 & E3). rewrite E3. eexists _, _. reflexivity. }
    destruct (G os _ _ _ _ (XUpdate q ms cts) E) as (w2 & rs2 & E2). exists (os ++ [XUpdate q ms cts]), w0, w2, rs2. rewrite E2. cbn [mix_step]. destruct (mix_update x q ms cts). reflexivity. }
  assert (EC' : x_codec (fst (mix_update x q ms cts)) = x_codec x) by (unfold mix_update; rewrite HTq; reflexivity).
  destruct (mixer_pes_ok (fst (mix_update x q ms cts)) p 0x100 key w c wc Hx' HF HW) as (n & EM); [rewrite EC'; exact EC|exact HK|].
  eexists. split; [exact EM|]. cbn [pes_pts pes_dts pes_payload option_map snd]. rewrite EP, ED. split; [reflexivity|]. destruct HF as [(_ & H & _)|(HT & _)]; [discriminate|]. rewrite HT. change (0 =? 0) with true.
  split; [|reflexivity]. destruct (Z.eqb_spec cts 0) as [->|HZ]; [replace (90 * (ms + 0) =? 90 * ms) with true by lia; reflexivity|replace (90 * (ms + cts) =? 90 * ms) with false by lia; reflexivity].
Qed.
Print Assumptions C105_update_then_mux.
(** A Mixer never encodes a timestamp of 2^33 or more, so C43's error does not reach its output. *)
Theorem C105_mixer_times_in_range : forall x, mixer_used x -> 0 <= x_dts x < 2 ^ 33 /\ 0 <= x_pts x < 2 ^ 33.
Proof. intros x Hx. destruct (mixer_ok x Hx) as (_ & _ & _ & A & B & _). split; assumption. Qed.
Print Assumptions C105_mixer_times_in_range.
Definition ex_h264 (key : bool) (b : bytes) : packet := mkP 0 0 0 0 (Some (mkH (Some (mkVH key (negb key) false false true 7 0)) None)) [] (Some b).
Example C105_example : frame (ex_h264 false [0; 0; 0; 3; 0x41; 1; 2]) 0x100 false /\ route_of (ex_h264 false (avcc [[0x41; 1; 2]])) = RAvc false (avcc [[0x41; 1; 2]]) /\
  exists c, codec_parse (x_codec new_tsmix) (ex_h264 false [0; 0; 0; 3; 0x41; 1; 2]) buffer0 = (c, (mkW [0; 0; 0; 1; 9; 0xf0; 0; 0; 0; 1; 0x41; 1; 2] 3 (w_script buffer0), Ok tt)).
Proof. split; [right; repeat split; eexists; split; reflexivity|]. split; [reflexivity|]. eexists. vm_compute. reflexivity. Qed.

(** ** C122: what SetTsHeader announces, for every history of the mixer *)
Definition saves_avc (o : mix_op) : bool := match o with XSaveAVC _ => true | _ => false end.
Definition saves_aac (o : mix_op) : bool := match o with XSaveAAC _ => true | _ => false end.
Definition names_fit (names : option (bytes * bytes)) : Prop :=
  match names with None => True | Some (provider, service) => len provider + len service <= 158 /\ is_bytes provider /\ is_bytes service end.
Definition meta_fits (md : option omap) : Prop :=
  match md with
  | None => True
  | Some m => len (provider_of m) + len (service_of m) <= 158 /\ is_bytes (provider_of m) /\ is_bytes (service_of m)
  end.
Lemma step_kept o x w : x_types (fst (fst (mix_step (x, w) o))) = Z.lor (x_types x) (match o with XSaveAVC _ => 1 | XSaveAAC _ => 2 | _ => 0 end) /\
  x_meta (fst (fst (mix_step (x, w) o))) = match o with XMeta md => desc_service [] 1 (provider_of md) (service_of md) | _ => x_meta x end.
Proof.
  destruct o as [p|md|p|p| |p a b|w2]; cbn [mix_step]; rewrite ?Z.lor_0_r.
  - unfold mix_mux, mix_parse. destruct (codec_parse (x_codec x) p buffer0) as [c [w1 r]]. destruct r; try (split; reflexivity).
    match goal with |- context [ts_mux ?m ?q ?d ?t ?v] => destruct (ts_mux m q d t v) as [k [w3 r3]] end. split; reflexivity.
  - split; reflexivity.
  - unfold mix_save_avc, mix_save_header, mix_parse, types_is_video. cbn [x_codec set_types]. destruct (codec_parse (x_codec x) p buffer0) as [c [w1 r]]. destruct r; try (split; reflexivity).
    match goal with |- context [ts_mux ?m ?q ?d ?t ?v] => destruct (ts_mux m q d t v) as [k [w3 r3]] end. split; reflexivity.
  - unfold mix_save_aac, mix_save_header, mix_parse, types_is_audio. cbn [x_codec set_types]. destruct (codec_parse (x_codec x) p buffer0) as [c [w1 r]]. destruct r; try (split; reflexivity).
    match goal with |- context [ts_mux ?m ?q ?d ?t ?v] => destruct (ts_mux m q d t v) as [k [w3 r3]] end. split; reflexivity.
  - unfold mix_set_header. destruct (ts_sdt _ _) as [k1 [s| | |]]; try (split; reflexivity). destruct (ts_pat k1) as [k2 [a| | |]]; try (split; reflexivity).
    destruct (ts_pmt k2 _) as [k3 [m| | |]]; try (split; reflexivity). match goal with |- context [let (_, _) := ?a in _] => destruct a end. split; reflexivity.
  - unfold mix_update. destruct (p_type p =? PktVideo); [split; reflexivity|]. destruct (p_type p =? PktAudio); [|split; reflexivity].
    destruct (codec_rate (x_codec x)); try (split; reflexivity). destruct (sync_audio _ _ _) as [[s d]| | |]; split; reflexivity.
  - split; reflexivity.
Qed.
Definition flags_of (a b : bool) : Z := (if a then 1 else 0) + (if b then 2 else 0).
Definition meta_of (md : option omap) : bytes := match md with None => [] | Some m => desc_service [] 1 (provider_of m) (service_of m) end.
Lemma run_kept os : forall x w x' w' rs a b md, mix_run (x, w) os = (x', w', rs) -> x_types x = flags_of a b -> x_meta x = meta_of md ->
  x_types x' = flags_of (a || existsb saves_avc os) (b || existsb saves_aac os) /\ x_meta x' = meta_of (last_meta os md).
Proof.
  induction os as [|o os IH]; intros x w x' w' rs a b md E ET EM; cbn [mix_run existsb last_meta] in *.
  - inversion E; subst. rewrite !orb_false_r. split; assumption.
  - destruct (step_kept o x w) as [K1 K2]. destruct (mix_step (x, w) o) as [[x1 w1] r]. cbn [fst] in *.
    destruct (mix_run (x1, w1) os) as [[x2 w2] rs2] eqn:E2. inversion E; subst.
    rewrite ET in K1. rewrite EM in K2. rewrite !orb_assoc.
    assert (K1' : x_types x1 = flags_of (a || saves_avc o) (b || saves_aac o)) by (rewrite K1; destruct o, a, b; reflexivity).
    assert (K2' : x_meta x1 = meta_of (match o with XMeta m => Some m | _ => md end)) by (rewrite K2; destruct o; reflexivity).
    destruct (IH x1 w1 x' w' rs2 _ _ _ E2 K1' K2') as [H1 H2]. split; [exact H1|]. rewrite H2. destruct o; reflexivity.
Qed.
Theorem C122_mixer_tables : forall os names w0 x w1 rs w, mix_run (new_tsmix, w0) os = (x, w1, rs) ->
  names_in (last_meta os None) names -> names_fit names -> never_fails w ->
  let avc := existsb saves_avc os in let aac := existsb saves_aac os in
  exists x' w' out sdt pat pmt b1 b2 b3 desc n1 n3, mix_set_header x w = (x', (w', Ok tt)) /\
    w_out w' = w_out w ++ out /\ read_stream out = Some [sdt; pat; pmt] /\ ts_pid sdt = 0x11 /\ ts_pid pat = 0 /\ ts_pid pmt = 0x1001 /\
    read_section (ts_payload sdt) = Some (0x42, n1, b1) /\ read_sdt b1 = Some (1, 0xff01, 1, desc) /\
    match names with
    | None => desc = []
    | Some (provider, service) => exists c, read_descs desc = Some [(0x48, c)] /\ read_service c = Some (1, provider, service)
    end /\
    read_section (ts_payload pat) = Some (0, 13, b2) /\ read_pat b2 = Some (1, [(1, 0x1001)]) /\
    read_section (ts_payload pmt) = Some (2, n3, b3) /\
    read_pmt b3 = Some (1, if aac then 0x101 else 0x100, (if avc then [(0x1b, 0x100)] else []) ++ (if aac then [(0x0f, 0x101)] else [])).
Proof.
  intros os names w0 x w1 rs w E HN HF HW avc aac.
  assert (EN : names = option_map (fun m => (provider_of m, service_of m)) (last_meta os None) /\ meta_fits (last_meta os None)).
  { destruct (last_meta os None) as [m|], names as [[provider service]|]; cbn [names_in names_fit meta_fits option_map] in *; try contradiction; [|auto].
    destruct HN as (HN & HP & HS). apply (name_in_str _ _ _ HN) in HP, HS. fold (provider_of m) in HP. fold (service_of m) in HS. subst provider service. auto. }
  clear HN HF. destruct EN as [-> HF].
  assert (Hx : mixer_used x) by (exists os, w0, w1, rs; exact E).
  destruct (run_kept os new_tsmix w0 x w1 rs false false None E eq_refl eq_refl) as [ET EM]. cbn [orb] in ET. fold avc aac in ET.
  rewrite set_header_tables. destruct (mixer_ok x Hx) as (HM & _).
  assert (HL : len (x_meta x) <= 163).
  { rewrite EM. destruct (last_meta os None) as [m|]; cbn [meta_of meta_fits] in *; [|unfold len; cbn; lia]. rewrite service_len. lia. }
  destruct (tables_ok x HM HL) as (k & s & a & b & ps & pa & pb & ba & bb & E1 & K & S1 & A1 & P1 & S2 & A2 & A3 & P2 & P3 & _). rewrite E1. rewrite run_plan_ok by exact HW.
  assert (HB : is_bytes (x_meta x)).
  { rewrite EM. destruct (last_meta os None) as [m|]; cbn [meta_of meta_fits] in *; [|constructor]. destruct HF as (_ & HB1 & HB2).
    unfold desc_service. cbn [app]. repeat (apply Forall_cons; [unfold byte, u8; lia|]). apply is_bytes_app. split; [exact HB1|]. apply Forall_cons; [unfold byte, u8; lia|exact HB2]. }
  destruct (S2 HB) as (b1 & S3 & S4).
  eexists _, _, _, _, _, _, b1, ba, bb, (x_meta x), _, _. split; [reflexivity|]. split; [reflexivity|]. split.
  { cbn [concat]. rewrite app_nil_r. replace (s ++ a ++ b) with (s ++ a ++ b ++ []) by (rewrite app_nil_r; reflexivity).
    apply read_stream_cons; [eapply read_packet_len, S1|exact S1|]. apply read_stream_cons; [eapply read_packet_len, A1|exact A1|]. apply read_stream_cons; [eapply read_packet_len, P1|exact P1|]. reflexivity. }
  split; [reflexivity|]. split; [reflexivity|]. split; [reflexivity|]. split; [exact S3|]. split; [exact S4|]. split.
  { rewrite EM. destruct (last_meta os None) as [m|]; cbn [meta_of meta_fits option_map] in *; [|reflexivity]. destruct HF as (HF & _). pose proof (len_nonneg (provider_of m)). pose proof (len_nonneg (service_of m)).
    destruct (C50_descriptors [DService 1 (provider_of m) (service_of m)]) as (ds & D1 & D2); [apply Forall_cons; [cbn [desc_fits]; lia|constructor]|].
    destruct ds as [|[tag c] [|? ?]]; try (exfalso; inversion D2; subst; match goal with H : Forall2 _ [] (_ :: _) |- _ => inversion H end). assert (D3 : desc_found (DService 1 (provider_of m) (service_of m)) (tag, c)) by (inversion D2; assumption).
    destruct D3 as (D3 & D4). cbn [fst snd] in *. subst tag. exists c. split; [exact D1|exact D4]. }
  split; [exact A2|]. split; [exact A3|]. split; [exact P2|]. cbn [ts_payload]. rewrite P3, ET. destruct avc, aac; reflexivity.
Qed.
Print Assumptions C122_mixer_tables.
Example C122_example : forall p h, let os := [XHeader; XSaveAAC h; XMeta [(str "Provider", VStr (str "me"))]; XMux p; XUpdate p 1 2] in
  names_in (last_meta os None) (Some (str "me", str "undefined")) /\ names_fit (Some (str "me", str "undefined")) /\ existsb saves_avc os = false /\ existsb saves_aac os = true.
Proof.
  intros p h. cbn [last_meta names_in names_fit existsb saves_avc saves_aac orb]. split; [|split; [|split; reflexivity]].
  - split; [constructor; [intros []|constructor]|]. split; [left; left; reflexivity|]. right. split; [reflexivity|]. intros s [H|[]]. discriminate H.
  - vm_compute. split; [congruence|]. split; repeat constructor; vm_compute; congruence.
Qed.
