(** Lemmas about package parser. *)
From Verif Require Import Base.Go Base.GoFacts Base.IO Proofs.IOFacts Model.Packet Model.Parsers Spec.Parsers.
Local Ltac Zify.zify_post_hook ::= Z.div_mod_to_equations.

(** ** Small arithmetic *)
Lemma lor_add a b n : 0 <= n -> (exists q, a = q * 2 ^ n) -> 0 <= b < 2 ^ n -> Z.lor a b = a + b.
Proof. intros Hn [q ->] Hb. apply lor_disj; assumption. Qed.
Lemma land_mask a k m : 0 <= k -> m = 2 ^ k - 1 -> Z.land a m = a mod 2 ^ k.
Proof. intros H ->. apply land_ones, H. Qed.

(** ** AAC *)
Definition cfg_ok (p : aac) : Prop := 0 <= ac_object p < 32 /\ 0 <= ac_rate p < 16 /\ 0 <= ac_chan p < 16.

Lemma adts_header_eq p n : cfg_ok p -> 0 <= n ->
  let L := (n + 7) mod 8192 in
  adts_header p n = [255; 241; ((ac_object p - 1) mod 4) * 64 + ac_rate p * 4 + ac_chan p / 4;
                     (ac_chan p mod 4) * 64 + L / 2048; (L mod 2048) / 8; (L mod 8) * 32 + 31; 252].
Proof.
  intros (Ho & Hr & Hc) Hn L. unfold adts_header.
  assert (EL : Z.land (u16 (u16 n + 7)) 8191 = L).
  { rewrite (land_mask _ 13) by lia. change (2 ^ 13) with 8192. unfold u16, L. lia. }
  rewrite EL. assert (HL : 0 <= L < 8192) by (unfold L; lia). clearbody L.
  rewrite !shiftl_mul, !shiftr_div by lia.
  rewrite (land_mask (ac_chan p) 2), (land_mask L 11), (land_mask L 3) by lia.
  change (2 ^ 2) with 4. change (2 ^ 6) with 64. change (2 ^ 11) with 2048. change (2 ^ 3) with 8. change (2 ^ 5) with 32.
  unfold u8, u16.
  replace ((ac_object p - 1) mod 256 * 64 mod 256) with ((ac_object p - 1) mod 4 * 64) by lia.
  replace (ac_rate p * 4 mod 256) with (ac_rate p * 4) by lia.
  rewrite (lor_add _ (ac_rate p * 4) 6) by (lia || (eexists; reflexivity)).
  rewrite (lor_add _ (ac_chan p / 4) 2); [|lia| |change (2 ^ 2) with 4; lia].
  2:{ exists ((ac_object p - 1) mod 4 * 16 + ac_rate p). change (2 ^ 2) with 4. lia. }
  replace (ac_chan p mod 4 * 64 mod 256) with (ac_chan p mod 4 * 64) by lia.
  replace (L / 2048 mod 256) with (L / 2048) by lia.
  rewrite (lor_add _ (L / 2048) 6); [|lia|eexists; reflexivity|change (2 ^ 6) with 64; lia].
  replace (L mod 2048 / 8 mod 256) with (L mod 2048 / 8) by lia.
  replace ((L mod 8 * 32) mod 65536 mod 256) with (L mod 8 * 32) by lia.
  rewrite (lor_add _ 31 5) by (lia || (eexists; reflexivity)). reflexivity.
Qed.

Lemma be_val_56 a b c d e f g : be_val [a; b; c; d; e; f; g] =
  ((a * 256 + b) * 256 + c) * 4294967296 + ((d * 256 + e) * 256 + f) * 256 + g.
Proof. unfold be_val. cbn [fold_left]. lia. Qed.

Lemma adts_eq (rest : bytes) a0 a1 a2 a3 a4 a5 a6 a7 a8 a9 a10 a11 a12 a13 a14 b0 b1 b2 b3 b4 b5 b6 b7 b8 b9 b10 b11 b12 b13 b14 : a0 = b0 -> a1 = b1 -> a2 = b2 -> a3 = b3 -> a4 = b4 -> a5 = b5 -> a6 = b6 -> a7 = b7 -> a8 = b8 -> a9 = b9 -> a10 = b10 -> a11 = b11 -> a12 = b12 -> a13 = b13 -> a14 = b14 ->
  Some (mkAdts a0 a1 a2 a3 a4 a5 a6 a7 a8 a9 a10 a11 a12 a13 a14, rest) = Some (mkAdts b0 b1 b2 b3 b4 b5 b6 b7 b8 b9 b10 b11 b12 b13 b14, rest).
Proof. intros. subst. reflexivity. Qed.
Lemma read_adts_header p n rest : cfg_ok p -> 0 <= n ->
  read_adts (adts_header p n ++ rest) =
  Some (mkAdts 4095 0 0 1 ((ac_object p - 1) mod 4) (ac_rate p) (ac_chan p / 8) (ac_chan p mod 8) 0 0 0 0 ((n + 7) mod 8192) 2047 0, rest).
Proof.
  intros Hp Hn. rewrite (adts_header_eq p n Hp Hn). destruct Hp as (Ho & Hr & Hc).
  set (o := (ac_object p - 1) mod 4). assert (Hoo : 0 <= o < 4) by (unfold o; lia). clearbody o. clear Ho.
  set (r := ac_rate p) in *. set (c := ac_chan p) in *. clearbody r c.
  set (L := (n + 7) mod 8192). assert (HL : 0 <= L < 8192) by (unfold L; lia). clearbody L. clear Hn n p.
  cbn [app read_adts]. rewrite be_val_56. unfold field.
  repeat match goal with |- context [2 ^ ?e] => let v := eval compute in (2 ^ e) in change (2 ^ e) with v end.
  set (v := ((255 * 256 + 241) * 256 + (o * 64 + r * 4 + c / 4)) * 4294967296 + ((c mod 4 * 64 + L / 2048) * 256 + L mod 2048 / 8) * 65536 + (L mod 8 * 32 + 31) * 256 + 252).
  assert (Ev : ((255 * 256 + 241) * 256 + (o * 64 + r * 4 + c / 4)) * 4294967296 + (((c mod 4 * 64 + L / 2048) * 256 + L mod 2048 / 8) * 256 + (L mod 8 * 32 + 31)) * 256 + 252 = v) by (unfold v; lia).
  rewrite Ev.
  assert (Ev2 : v = 72041101363511296 + o * 274877906944 + r * 17179869184 + c * 1073741824 + L * 8192 + 8188 ) by (unfold v; lia).
  clearbody v. rewrite Ev2 in *. clear Ev Ev2 v.
  apply adts_eq; lia.
Qed.

Lemma specific_info_eq p b0 b1 rest : byte b0 -> byte b1 ->
  let '(o, r, c) := config_bits b0 b1 in
  specific_info p (b0 :: b1 :: rest) = (mkAac true o r c, if r =? 15 then Err EOther else Ok tt) /\
  0 <= o < 32 /\ 0 <= r < 16 /\ 0 <= c < 16.
Proof.
  unfold byte. intros H0 H1. unfold config_bits. unfold specific_info. rewrite !len_cons. pose proof (len_nonneg rest).
  replace (1 + (1 + len rest) <? 2) with false by lia.
  change (at_ (b0 :: b1 :: rest) 0) with b0. change (at_ (b0 :: b1 :: rest) 1) with b1.
  rewrite (land_mask _ 8), (land_mask _ 3), (land_mask _ 4), !shiftl_mul, !shiftr_div by lia.
  change (2 ^ 8) with 256. change (2 ^ 3) with 8. change (2 ^ 4) with 16. change (2 ^ 1) with 2. change (2 ^ 7) with 128. unfold u8.
  replace ((b0 mod 8 * 2) mod 256) with (b0 mod 8 * 2) by lia.
  rewrite (lor_add _ (b1 / 128) 1); [|lia|exists (b0 mod 8); reflexivity|change (2 ^ 1) with 2; lia].
  replace (b0 mod 8 * 2 + b1 / 128) with ((b0 * 256 + b1) / 128 mod 16) by lia.
  replace (b0 / 8 mod 256) with ((b0 * 256 + b1) / 2048) by lia.
  replace (b1 / 8 mod 16) with ((b0 * 256 + b1) / 8 mod 16) by lia.
  split; [reflexivity|lia].
Qed.

(** Reachable configurations are in range. *)
Lemma aac_parse_cfg p b t w : is_bytes b -> cfg_ok p -> cfg_ok (fst (aac_parse p b t w)).
Proof.
  intros Hb Hp. unfold aac_parse. destruct (len b =? 0); [exact Hp|]. destruct (t =? 0); [|destruct (t =? 1); exact Hp].
  destruct b as [|b0 [|b1 b]]; try exact Hp.
  inversion Hb as [|? ? Y0 Hb1]; inversion Hb1 as [|? ? Y1 Hb2]; subst.
  pose proof (specific_info_eq p b0 b1 b Y0 Y1) as HS. destruct (config_bits b0 b1) as [[o r] c]. destruct HS as (E & R1 & R2 & R3). rewrite E.
  cbn [fst]. unfold cfg_ok. cbn. auto.
Qed.
Lemma new_aac_cfg : cfg_ok new_aac. Proof. unfold cfg_ok. cbn. lia. Qed.
Lemma aac_run_cfg ops : forall p, Forall (fun o => is_bytes (fst (fst o))) ops -> cfg_ok p -> cfg_ok (fst (aac_run p ops)).
Proof.
  induction ops as [|[[b t] w] ops IH]; intros p HF Hp; cbn [aac_run]; [exact Hp|]. inversion HF; subst. cbn in H1.
  pose proof (aac_parse_cfg p b t w H1 Hp) as H. destruct (aac_parse p b t w) as [p1 r]. cbn [fst] in H.
  specialize (IH p1 H2 H). destruct (aac_run p1 ops). exact IH.
Qed.

(** ** H.264: the loop on the remaining bytes *)
Fixpoint annexb_go (fuel : nat) (rest info : bytes) (has wrote : bool) (buf : bytes) (w : writer) : bytes * (writer * res unit) :=
  if len rest <=? 0 then (buf, (w, Ok tt)) else
  match fuel with
  | O => (buf, (w, OutOfFuel))
  | S f =>
      if len rest <? 4 then (buf, (w, Err EOther)) else
      let n := be_val (take rest 4) in
      if n <=? 0 then (buf, (w, Err EOther)) else
      let r := drop rest 4 in
      if len r <? n then (buf, (w, Err EOther)) else
      let nal := take r n in
      let ty := nal_type nal in
      if ty =? 9 then annexb_go f (drop r n) info has wrote buf w
      else if (ty =? 5) || (ty =? 1) || (ty =? 6) then
        match (w* _ := (if (ty =? 5) && negb wrote then write (if has then buf else info) else wret tt) in
               w* _ := write start_code in
               write nal) w with
        | (w', Ok _) => annexb_go f (drop r n) info has ((ty =? 5) || wrote) buf w'
        | (w', rr) => (buf, (w', rr))
        end
      else if (ty =? 7) || (ty =? 8) then annexb_go f (drop r n) info true wrote (buf ++ start_code ++ nal) w
      else (buf, (w, Err EOther))
  end.

Lemma fold_size s : forall a, fold_left (fun size b => Z.shiftl size 8 + b) s a = fold_left (fun x b => x * 256 + b) s a.
Proof. induction s as [|b s IH]; intros a; cbn [fold_left]; [reflexivity|]. rewrite shiftl_mul by lia. apply IH. Qed.
Lemma drop_drop s a b : 0 <= a -> 0 <= b -> drop (drop s a) b = drop s (a + b).
Proof.
  intros Ha Hb. unfold drop. rewrite Z2Nat.inj_add by lia. set (n := Z.to_nat a). set (m := Z.to_nat b). clearbody n m.
  revert s; induction n as [|n IH]; intros s; [reflexivity|]. destruct s; cbn [skipn Nat.add]; [apply skipn_nil|apply IH].
Qed.
Lemma nal_type_at s i n : 0 <= i -> i < len s -> 0 < n -> nal_type (take (drop s i) n) = at_ s i mod 32.
Proof.
  intros Hi Hl Hn. unfold at_, take, drop. assert (HN : exists k, Z.to_nat n = S k) by (destruct (Z.to_nat n) eqn:E; [lia|eauto]).
  destruct HN as [k ->]. unfold len in Hl. assert (Hl' : (Z.to_nat i < length s)%nat) by lia. clear Hl Hi. revert s Hl'.
  induction (Z.to_nat i) as [|j IH]; intros [|x s] Hl; cbn [length] in Hl; try lia; [reflexivity|]. cbn [skipn nth]. apply IH. lia.
Qed.
Lemma go_slice_to_end s a : 0 <= a <= len s -> go_slice s a (len s) = Ok (drop s a).
Proof.
  intros H. unfold go_slice. replace ((0 <=? a) && (a <=? len s) && (len s <=? len s)) with true by lia. f_equal.
  unfold slice, drop. apply firstn_all2. rewrite skipn_length. unfold len in *. lia.
Qed.
Lemma go_slice_take s a n : 0 <= a -> 0 <= n -> a + n <= len s -> go_slice s a (a + n) = Ok (take (drop s a) n).
Proof.
  intros H1 H2 H3. unfold go_slice. replace ((0 <=? a) && (a <=? a + n) && (a + n <=? len s)) with true by lia. f_equal.
  unfold slice, drop, take. f_equal. f_equal. lia.
Qed.

Lemma annexb_loop_go fuel : forall src info index has wrote buf w, 0 <= index <= len src ->
  annexb_loop fuel src info index (len src - index) has wrote buf w = annexb_go fuel (drop src index) info has wrote buf w.
Proof.
  induction fuel as [|f IH]; intros src info index has wrote buf w Hi; cbn [annexb_loop annexb_go]; rewrite len_drop by lia.
  { reflexivity. }
  destruct (len src - index <=? 0) eqn:E0; [reflexivity|].
  rewrite go_slice_to_end by lia. cbn [bind]. unfold nalu_size. rewrite len_drop by lia.
  destruct (len src - index <? 4) eqn:E4; [reflexivity|].
  rewrite fold_size. change (fold_left (fun x b => x * 256 + b) (take (drop src index) 4) 0) with (be_val (take (drop src index) 4)).
  set (n := be_val (take (drop src index) 4)). destruct (n <=? 0) eqn:En; [reflexivity|].
  rewrite drop_drop by lia. rewrite len_drop by lia. replace (len src - index - 4) with (len src - (index + 4)) by lia.
  destruct (len src - (index + 4) <? n) eqn:El; [reflexivity|].
  rewrite go_slice_take by lia. unfold go_at. replace ((0 <=? index + 4) && (index + 4 <? len src)) with true by lia.
  rewrite (land_mask _ 5) by lia. change (2 ^ 5) with 32. rewrite nal_type_at by lia.
  rewrite drop_drop by lia. replace (len src - (index + 4) - n) with (len src - (index + 4 + n)) by lia.
  rewrite !IH by lia.
  destruct (at_ src (index + 4) mod 32 =? 9); [reflexivity|].
  destruct ((at_ src (index + 4) mod 32 =? 5) || (at_ src (index + 4) mod 32 =? 1) || (at_ src (index + 4) mod 32 =? 6)); [|reflexivity].
  match goal with |- context [wbind ?a ?b w] => destruct (wbind a b w) as [w' [u|e| |]] end; try reflexivity.
  apply IH. lia.
Qed.

(** The writes it makes and its result do not depend on the writer. *)
Fixpoint annexb_plan (fuel : nat) (rest info : bytes) (has wrote : bool) (buf : bytes) : list bytes * res unit :=
  if len rest <=? 0 then ([], Ok tt) else
  match fuel with
  | O => ([], OutOfFuel)
  | S f =>
      if len rest <? 4 then ([], Err EOther) else
      let n := be_val (take rest 4) in
      if n <=? 0 then ([], Err EOther) else
      let r := drop rest 4 in
      if len r <? n then ([], Err EOther) else
      let nal := take r n in
      let ty := nal_type nal in
      if ty =? 9 then annexb_plan f (drop r n) info has wrote buf
      else if (ty =? 5) || (ty =? 1) || (ty =? 6) then
        let '(cs, rr) := annexb_plan f (drop r n) info has ((ty =? 5) || wrote) buf in
        (((if (ty =? 5) && negb wrote then [if has then buf else info] else []) ++ [start_code] ++ [nal]) ++ cs, rr)
      else if (ty =? 7) || (ty =? 8) then annexb_plan f (drop r n) info true wrote (buf ++ start_code ++ nal)
      else ([], Err EOther)
  end.
Lemma annexb_go_plan fuel : forall rest info has wrote buf w,
  snd (annexb_go fuel rest info has wrote buf w) = run_plan (fst (annexb_plan fuel rest info has wrote buf)) (snd (annexb_plan fuel rest info has wrote buf)) w.
Proof.
  induction fuel as [|f IH]; intros rest info has wrote buf w; cbn [annexb_go annexb_plan].
  { destruct (len rest <=? 0); reflexivity. }
  destruct (len rest <=? 0); [reflexivity|]. destruct (len rest <? 4); [reflexivity|].
  destruct (be_val (take rest 4) <=? 0); [reflexivity|].
  destruct (len (drop rest 4) <? be_val (take rest 4)); [reflexivity|].
  set (nal := take (drop rest 4) (be_val (take rest 4))). set (rs := drop (drop rest 4) (be_val (take rest 4))).
  destruct (nal_type nal =? 9); [apply IH|].
  destruct ((nal_type nal =? 5) || (nal_type nal =? 1) || (nal_type nal =? 6)).
  - assert (HP : planned (w* _ := (if (nal_type nal =? 5) && negb wrote then write (if has then buf else info) else wret tt) in
                          w* _ := write start_code in write nal)
       ((if (nal_type nal =? 5) && negb wrote then [if has then buf else info] else []) ++ [start_code] ++ [nal]) (Ok tt)).
    { eapply (planned_bind _ _ _ tt); [destruct ((nal_type nal =? 5) && negb wrote); [apply planned_write|apply planned_ret]|].
      eapply (planned_bind _ _ _ tt); [apply planned_write|apply planned_write]. }
    rewrite (HP w). specialize (IH rs info has ((nal_type nal =? 5) || wrote) buf).
    destruct (annexb_plan f rs info has ((nal_type nal =? 5) || wrote) buf) as [cs rr]. cbn [fst snd] in *.
    rewrite (run_plan_app _ cs tt rr w).
    destruct (run_plan (A := unit) ((if (nal_type nal =? 5) && negb wrote then [if has then buf else info] else []) ++ [start_code] ++ [nal]) (Ok tt) w) as [w' [[]|e| |]];
      try reflexivity. apply IH.
  - destruct ((nal_type nal =? 7) || (nal_type nal =? 8)); [apply IH|reflexivity].
Qed.

(** ** The plan on AVCC data *)
Definition pstate := (bool * bool * bytes)%type.
Fixpoint nal_calls (info : bytes) (has wrote : bool) (buf : bytes) (nals : list bytes) : list bytes * pstate :=
  match nals with
  | [] => ([], (has, wrote, buf))
  | n :: ns =>
      if is_slice_or_sei n then
        let '(cs, st) := nal_calls info has (is_idr n || wrote) buf ns in
        (((if is_idr n && negb wrote then [if has then buf else info] else []) ++ [start_code] ++ [n]) ++ cs, st)
      else if is_pset n then nal_calls info true wrote (buf ++ start_code ++ n) ns
      else nal_calls info has wrote buf ns
  end.

Lemma good_nal_head n rest : good_nal n ->
  len (be32 (len n) ++ n ++ rest) = 4 + len n + len rest /\ take (be32 (len n) ++ n ++ rest) 4 = be32 (len n) /\
  be_val (be32 (len n)) = len n /\ drop (be32 (len n) ++ n ++ rest) 4 = n ++ rest /\ 0 < len n.
Proof.
  intros (H1 & H2 & H3). rewrite !len_app, len_be32. split; [lia|]. change 4 with (len (be32 (len n))). rewrite take_app, drop_app, be_val_be32.
  change (2 ^ 32) with 4294967296 in H3. pose proof (len_nonneg n). assert (0 < len n) by (destruct n; [congruence|rewrite len_cons; pose proof (len_nonneg n); lia]).
  repeat split; try assumption. lia.
Qed.

Lemma plan_avcc nals : forall fuel info has wrote buf tail, Forall good_nal nals -> Forall (fun n => is_supported n = true) nals ->
  (length (avcc nals ++ tail) <= fuel)%nat ->
  exists fuel', (length tail <= fuel')%nat /\
  let '(cs, (has', wrote', buf')) := nal_calls info has wrote buf nals in
  let '(cs2, r) := annexb_plan fuel' tail info has' wrote' buf' in
  annexb_plan fuel (avcc nals ++ tail) info has wrote buf = (cs ++ cs2, r).
Proof.
  induction nals as [|n nals IH]; intros fuel info has wrote buf tail HG HS HF.
  - cbn [avcc map concat app nal_calls] in *. exists fuel. split; [exact HF|]. destruct (annexb_plan fuel tail info has wrote buf). reflexivity.
  - inversion HG as [|? ? G1 G2]; inversion HS as [|? ? S1 S2]; subst.
    assert (EA : avcc (n :: nals) ++ tail = be32 (len n) ++ n ++ (avcc nals ++ tail)) by (unfold avcc; cbn [map concat]; rewrite <- !app_assoc; reflexivity).
    rewrite EA in HF |- *. destruct (good_nal_head n (avcc nals ++ tail) G1) as (L1 & L2 & L3 & L4 & L5).
    pose proof (len_nonneg (avcc nals ++ tail)) as L6.
    destruct fuel as [|f]; [unfold len in *; lia|]. cbn [annexb_plan]. rewrite L1, L2, L3, L4.
    replace (4 + len n + len (avcc nals ++ tail) <=? 0) with false by lia. replace (4 + len n + len (avcc nals ++ tail) <? 4) with false by lia.
    replace (len n <=? 0) with false by lia. rewrite len_app. replace (len n + len (avcc nals ++ tail) <? len n) with false by lia.
    rewrite take_app, drop_app.
    assert (HF' : (length (avcc nals ++ tail) <= f)%nat) by (unfold len in *; lia).
    cbn [nal_calls]. unfold is_supported in S1. unfold is_slice_or_sei, is_pset, is_idr in *.
    destruct (nal_type n =? 9) eqn:E9.
    { replace (nal_type n =? 1) with false by lia. replace (nal_type n =? 5) with false by lia. replace (nal_type n =? 6) with false by lia.
      replace (nal_type n =? 7) with false by lia. replace (nal_type n =? 8) with false by lia. cbn [orb]. apply IH; assumption. }
    replace ((nal_type n =? 5) || (nal_type n =? 1) || (nal_type n =? 6)) with ((nal_type n =? 1) || (nal_type n =? 5) || (nal_type n =? 6))
      by (destruct (nal_type n =? 1), (nal_type n =? 5); reflexivity).
    destruct ((nal_type n =? 1) || (nal_type n =? 5) || (nal_type n =? 6)) eqn:EV.
    + destruct (IH f info has ((nal_type n =? 5) || wrote) buf tail G2 S2 HF') as (fuel' & HF2 & HI). exists fuel'. split; [exact HF2|].
      destruct (nal_calls info has ((nal_type n =? 5) || wrote) buf nals) as [cs [[has' wrote'] buf']].
      destruct (annexb_plan fuel' tail info has' wrote' buf') as [cs2 r]. rewrite HI. rewrite <- !app_assoc. reflexivity.
    + cbn [orb] in S1. rewrite orb_false_r in S1. rewrite S1. apply IH; assumption.
Qed.

(** Without a good supported unit at the front the loop stops with an error and writes no more. *)
Lemma is_supported_eq n : is_supported n = ((nal_type n =? 9) || ((nal_type n =? 5) || (nal_type n =? 1) || (nal_type n =? 6)) || ((nal_type n =? 7) || (nal_type n =? 8))).
Proof. unfold is_supported, is_slice_or_sei, is_pset. destruct (nal_type n =? 1), (nal_type n =? 5), (nal_type n =? 6), (nal_type n =? 7), (nal_type n =? 8), (nal_type n =? 9); reflexivity. Qed.

Lemma front_nal tail : is_bytes tail -> len tail <? 4 = false -> be_val (take tail 4) <=? 0 = false ->
  len (drop tail 4) <? be_val (take tail 4) = false ->
  let n := be_val (take tail 4) in let nal := take (drop tail 4) n in
  good_nal nal /\ len nal = n /\ tail = be32 (len nal) ++ nal ++ drop (drop tail 4) n.
Proof.
  intros HB H4 Hn Hl n nal. assert (Ln : len nal = n) by (unfold nal; apply len_take; fold n in Hn, Hl; lia).
  split; [|split; [exact Ln|]].
  - split; [intros E; rewrite E in Ln; unfold len in Ln; cbn in Ln; fold n in Hn; lia|]. split; [apply is_bytes_take, is_bytes_drop, HB|].
    rewrite Ln. pose proof (be_val_bound (take tail 4) (is_bytes_take _ _ HB)) as HV. rewrite len_take in HV by lia. exact (proj2 HV).
  - rewrite Ln. unfold nal. rewrite take_drop. unfold n.
    assert (E4 : exists a b c d, take tail 4 = [a; b; c; d] /\ byte a /\ byte b /\ byte c /\ byte d).
    { destruct tail as [|a [|b [|c [|d t]]]]; try (unfold len in H4; cbn in H4; discriminate). exists a, b, c, d.
      inversion HB as [|? ? B1 HB1]; inversion HB1 as [|? ? B2 HB2]; inversion HB2 as [|? ? B3 HB3]; inversion HB3 as [|? ? B4 HB4]; subst. auto. }
    destruct E4 as (a & b & c & d & E & B1 & B2 & B3 & B4). rewrite E, be32_val by assumption. rewrite <- E. symmetry. apply take_drop.
Qed.

Lemma plan_bad fuel tail info has wrote buf : is_bytes tail -> bad_tail tail -> (length tail <= fuel)%nat ->
  annexb_plan fuel tail info has wrote buf = ([], Err EOther).
Proof.
  intros HB [Hne Hbad] HF. assert (HL : 0 < len tail) by (destruct tail; [congruence|rewrite len_cons; pose proof (len_nonneg tail); lia]).
  destruct fuel as [|f]; [unfold len in HL; lia|]. cbn [annexb_plan]. replace (len tail <=? 0) with false by lia.
  destruct (len tail <? 4) eqn:E4; [reflexivity|]. destruct (be_val (take tail 4) <=? 0) eqn:En; [reflexivity|].
  destruct (len (drop tail 4) <? be_val (take tail 4)) eqn:El; [reflexivity|].
  destruct (front_nal tail HB E4 En El) as (G & Ln & E).
  set (nal := take (drop tail 4) (be_val (take tail 4))) in *.
  destruct (is_supported nal) eqn:ES; [elim (Hbad nal _ G ES E)|].
  rewrite is_supported_eq in ES. apply orb_false_elim in ES as [ES E3]. apply orb_false_elim in ES as [E1 E2].
  rewrite E1, E2, E3. reflexivity.
Qed.

(** Every byte string is a sequence of good supported units followed by nothing or by something bad. *)
Lemma split_avcc fuel : forall s, is_bytes s -> (length s <= fuel)%nat ->
  exists nals tail, s = avcc nals ++ tail /\ Forall good_nal nals /\ Forall (fun n => is_supported n = true) nals /\ (tail = [] \/ bad_tail tail).
Proof.
  induction fuel as [|f IH]; intros s HB HF.
  { destruct s; [|cbn in HF; lia]. exists [], []. repeat split; auto. }
  destruct s as [|b0 s0] eqn:Es; [exists [], []; repeat split; auto|]. rewrite <- Es in *.
  assert (HBad : (forall n rest, good_nal n -> is_supported n = true -> s <> be32 (len n) ++ n ++ rest) ->
     exists nals tail, s = avcc nals ++ tail /\ Forall good_nal nals /\ Forall (fun n => is_supported n = true) nals /\ (tail = [] \/ bad_tail tail)).
  { intros H. exists [], s. repeat split; auto. right. split; [rewrite Es; discriminate|exact H]. }
  destruct (len s <? 4) eqn:E4.
  { apply HBad. intros n rest G _ E. destruct (good_nal_head n rest G) as (L1 & _). rewrite <- E in L1. pose proof (len_nonneg n). pose proof (len_nonneg rest). lia. }
  destruct (be_val (take s 4) <=? 0) eqn:En.
  { apply HBad. intros n rest G _ E. destruct (good_nal_head n rest G) as (L1 & L2 & L3 & _ & L5). rewrite <- E in L2. rewrite L2, L3 in En. lia. }
  destruct (len (drop s 4) <? be_val (take s 4)) eqn:El.
  { apply HBad. intros n rest G _ E. destruct (good_nal_head n rest G) as (L1 & L2 & L3 & L4 & L5). rewrite <- E in L2, L4. rewrite L2, L3, L4, len_app in El.
    pose proof (len_nonneg rest). lia. }
  destruct (front_nal s HB E4 En El) as (G & Ln & E).
  set (nal := take (drop s 4) (be_val (take s 4))) in *. set (rest := drop (drop s 4) (be_val (take s 4))) in *.
  destruct (is_supported nal) eqn:ES.
  - destruct (good_nal_head nal rest G) as (L1 & _ & _ & _ & L5). rewrite <- E in L1.
    destruct (IH rest) as (nals & tail & E1 & G1 & S1 & T1).
    + unfold rest. apply is_bytes_drop, is_bytes_drop, HB.
    + unfold len in *. lia.
    + exists (nal :: nals), tail. split; [|split; [constructor; assumption|split; [constructor; assumption|exact T1]]].
      rewrite E, E1. unfold avcc. cbn [map concat]. rewrite <- !app_assoc. reflexivity.
  - apply HBad. intros n r' G' S' E'. rewrite E in E'.
    destruct (good_nal_head nal rest G) as (_ & A2 & A3 & A4 & A5). destruct (good_nal_head n r' G') as (_ & B2 & B3 & B4 & B5).
    assert (EL : len n = len nal) by (rewrite <- A3, <- B3, <- A2, <- B2, E'; reflexivity).
    rewrite E', B4 in A4. assert (En' : n = nal).
    { rewrite <- (take_app n r'), <- (take_app nal rest), A4, EL. reflexivity. }
    subst n. congruence.
Qed.

(** ** Output of the calls = the specification *)
Lemma annexb_app a b : annexb (a ++ b) = annexb a ++ annexb b.
Proof. unfold annexb. rewrite map_app, concat_app. reflexivity. Qed.
Lemma calls_wrote info has buf nals : concat (fst (nal_calls info has true buf nals)) = annexb (filter is_slice_or_sei nals).
Proof.
  revert has buf; induction nals as [|n nals IH]; intros has buf; cbn [nal_calls filter]; [reflexivity|].
  destruct (is_slice_or_sei n) eqn:E.
  - rewrite orb_true_r, andb_false_r. specialize (IH has buf). destruct (nal_calls info has true buf nals) as [cs st]. cbn [fst] in *.
    cbn [app concat]. rewrite IH. unfold annexb. cbn [map concat]. rewrite <- app_assoc. reflexivity.
  - destruct (is_pset n); apply IH.
Qed.
Lemma calls_no_idr info nals : forall has buf, (forall n, In n nals -> is_idr n = false) ->
  nal_calls info has false buf nals =
    (fst (nal_calls info has true buf nals), (has || existsb is_pset nals, false, buf ++ annexb (filter is_pset nals))) /\
  concat (fst (nal_calls info has true buf nals)) = annexb (filter is_slice_or_sei nals).
Proof.
  induction nals as [|n nals IH]; intros has buf HI; cbn [nal_calls filter existsb].
  - rewrite orb_false_r. cbn. rewrite app_nil_r. split; reflexivity.
  - assert (HI' : forall m, In m nals -> is_idr m = false) by (intros m Hm; apply HI; right; exact Hm).
    pose proof (HI n (or_introl eq_refl)) as H0. rewrite H0. cbn [orb andb negb app].
    destruct (is_slice_or_sei n) eqn:EV.
    + assert (EP : is_pset n = false) by (unfold is_slice_or_sei, is_pset in *; lia). rewrite EP. cbn [orb].
      destruct (IH has buf HI') as [H1 H2]. rewrite H1.
      destruct (nal_calls info has true buf nals) as [cs st]. cbn [fst] in *. split; [reflexivity|].
      cbn [concat]. rewrite H2. unfold annexb. cbn [map concat]. rewrite <- app_assoc. reflexivity.
    + destruct (is_pset n) eqn:EP.
      * destruct (IH true (buf ++ start_code ++ n) HI') as [H1 H2]. rewrite H1. cbn [orb]. rewrite orb_true_r. split; [|exact H2].
        f_equal. f_equal. unfold annexb. cbn [map concat]. unfold start_code. rewrite <- !app_assoc. reflexivity.
      * cbn [orb]. apply IH, HI'.
Qed.
Lemma nal_calls_app info a : forall has wrote buf b,
  nal_calls info has wrote buf (a ++ b) =
  let '(c1, (h1, w1, b1)) := nal_calls info has wrote buf a in
  let '(c2, st) := nal_calls info h1 w1 b1 b in (c1 ++ c2, st).
Proof.
  induction a as [|n a IH]; intros has wrote buf b; cbn [app nal_calls].
  - destruct (nal_calls info has wrote buf b). reflexivity.
  - destruct (is_slice_or_sei n).
    + rewrite IH. destruct (nal_calls info has (is_idr n || wrote) buf a) as [c1 [[h1 w1] b1]]. destruct (nal_calls info h1 w1 b1 b) as [c2 st].
      rewrite <- !app_assoc. reflexivity.
    + destruct (is_pset n); apply IH.
Qed.
Lemma first_idr (nals : list bytes) : (forall n, In n nals -> is_idr n = false) \/
  exists pre idr post, nals = pre ++ idr :: post /\ (forall n, In n pre -> is_idr n = false) /\ is_idr idr = true.
Proof.
  induction nals as [|n nals IH]; [left; intros ? []|]. destruct (is_idr n) eqn:E.
  - right. exists [], n, nals. split; [reflexivity|]. split; [intros ? []|exact E].
  - destruct IH as [IH|(pre & idr & post & -> & H1 & H2)].
    + left. intros m [<-|Hm]; [exact E|apply IH, Hm].
    + right. exists (n :: pre), idr, post. split; [reflexivity|]. split; [|exact H2]. intros m [<-|Hm]; [exact E|apply H1, Hm].
Qed.
Lemma calls_convert info nals : converts info nals (delimiter ++ concat (fst (nal_calls info false false [] nals))).
Proof.
  destruct (first_idr nals) as [H|(pre & idr & post & -> & H1 & H2)].
  - destruct (calls_no_idr info nals false [] H) as [E1 E2]. rewrite E1. cbn [fst]. rewrite E2. apply Cv_no_idr, H.
  - rewrite nal_calls_app. destruct (calls_no_idr info pre false [] H1) as [E1 E2]. rewrite E1. cbn [orb app].
    set (has := existsb is_pset pre). set (buf := annexb (filter is_pset pre)).
    assert (EI : is_slice_or_sei idr = true) by (unfold is_slice_or_sei, is_idr in *; lia).
    cbn [nal_calls]. rewrite EI, H2. cbn [orb andb negb].
    pose proof (calls_wrote info has buf post) as E3. destruct (nal_calls info has true buf post) as [cs st]. cbn [fst] in *.
    replace (concat _) with (annexb (filter is_slice_or_sei pre) ++ (if has then buf else info) ++ annexb (filter is_slice_or_sei (idr :: post))).
    + apply Cv_idr; assumption.
    + rewrite concat_app. rewrite E2. f_equal. rewrite concat_app. cbn [app concat]. rewrite app_nil_r, E3. cbn [filter]. rewrite EI.
      unfold annexb. cbn [map concat]. unfold start_code. rewrite <- !app_assoc. reflexivity.
Qed.

(** The conversion is unique. *)
Lemma converts_fun cached nals s1 : converts cached nals s1 -> forall s2, converts cached nals s2 -> s1 = s2.
Proof.
  intros H1 s2 H2. revert H1.
  destruct H2 as [nals B1|pre2 idr2 post2 B1 B2]; intros H1.
  - remember nals as l eqn:El in H1. destruct H1 as [nals1 A1|pre idr post A1 A2]; subst; [reflexivity|].
    exfalso. rewrite (B1 idr) in A2; [discriminate|]. apply in_app_iff. right. left. reflexivity.
  - remember (pre2 ++ idr2 :: post2) as l eqn:El in H1. destruct H1 as [nals1 A1|pre idr post A1 A2].
    + exfalso. rewrite (A1 idr2) in B2; [discriminate|]. rewrite El. apply in_app_iff. right. left. reflexivity.
    + assert (E : pre = pre2 /\ idr = idr2 /\ post = post2).
      { revert pre2 A1 B1 El. induction pre as [|a pre IH]; intros [|b pre2] A1 B1 B3; cbn [app] in B3; inversion B3; subst.
        - auto.
        - exfalso. rewrite (B1 b (or_introl eq_refl)) in A2. discriminate.
        - exfalso. rewrite (A1 idr2 (or_introl eq_refl)) in B2. discriminate.
        - destruct (IH pre2) as (-> & -> & ->); auto; intros n Hn; [apply A1|apply B1]; right; exact Hn. }
      destruct E as (-> & -> & ->). reflexivity.
Qed.

(** ** Parse as a whole *)
Lemma is_start_spec b : is_start b = true <-> starts_0001 b.
Proof.
  unfold is_start, starts_0001. destruct b as [|b0 [|b1 [|b2 [|b3 rest]]]]; try (cbn; split; [discriminate|intros [? H]; discriminate]).
  rewrite !len_cons. pose proof (len_nonneg rest). replace (1 + (1 + (1 + (1 + len rest))) <? 4) with false by lia.
  change (at_ (b0 :: b1 :: b2 :: b3 :: rest) 0) with b0. change (at_ (b0 :: b1 :: b2 :: b3 :: rest) 1) with b1.
  change (at_ (b0 :: b1 :: b2 :: b3 :: rest) 2) with b2. change (at_ (b0 :: b1 :: b2 :: b3 :: rest) 3) with b3. split.
  - intros H1. exists rest. repeat f_equal; lia.
  - intros [r E]. inversion E; subst. reflexivity.
Qed.

(** Media data that is not Annex-B: the calls and the result. *)
Lemma parse_media p b : is_bytes b -> b <> [] -> ~ starts_0001 b ->
  exists calls r, (forall w, exists p', h264_parse p b false w = (p', run_plan calls r w) /\ h_info p' = h_info p) /\
    ((len b < 4 /\ calls = [] /\ r = Err EOther) \/
     exists nals tail, 4 <= len b /\ b = avcc nals ++ tail /\ Forall good_nal nals /\ Forall (fun n => is_supported n = true) nals /\
       converts (h_info p) nals (concat calls) /\ ((tail = [] /\ r = Ok tt) \/ (bad_tail tail /\ r = Err EOther))).
Proof.
  intros HB Hne Hs. assert (HL : len b =? 0 = false) by (destruct b; [congruence|rewrite len_cons; pose proof (len_nonneg b); lia]).
  assert (HS : is_start b = false) by (destruct (is_start b) eqn:E; [elim Hs; apply is_start_spec, E|reflexivity]).
  destruct (len b <? 4) eqn:E4.
  - exists [], (Err EOther). split; [|left; repeat split; lia]. intros w. exists p. split; [|reflexivity].
    unfold h264_parse, get_annexb. rewrite HL, HS, E4. reflexivity.
  - destruct (split_avcc (length b) b HB (le_n _)) as (nals & tail & E & G & S & T).
    destruct (plan_avcc nals (length b) (h_info p) false false [] tail G S ltac:(rewrite <- E; lia)) as (fuel' & HF & HP).
    rewrite <- E in HP. pose proof (calls_convert (h_info p) nals) as HC.
    destruct (nal_calls (h_info p) false false [] nals) as [cs [[has' wrote'] buf']]. cbn [fst] in HC.
    assert (HT : annexb_plan fuel' tail (h_info p) has' wrote' buf' = ([], if len tail <=? 0 then Ok tt else Err EOther)).
    { destruct T as [->|T].
      - destruct fuel'; reflexivity.
      - replace (len tail <=? 0) with false; [apply plan_bad|].
        + rewrite E in HB. apply is_bytes_app in HB. apply HB.
        + exact T.
        + exact HF.
        + destruct T as [T _]. destruct tail; [congruence|]. rewrite len_cons. pose proof (len_nonneg tail). lia. }
    rewrite HT, app_nil_r in HP.
    exists ([nalu_aud] ++ cs), (if len tail <=? 0 then Ok tt else Err EOther). split.
    + intros w. unfold h264_parse, get_annexb. rewrite HL, HS, E4. cbn [run_plan app].
      destruct (write nalu_aud w) as [w' [u|e| |]]; [|exists p; split; reflexivity..].
      pose proof (annexb_loop_go (length b) b (h_info p) 0 false false [] w' ltac:(pose proof (len_nonneg b); lia)) as HG.
      rewrite Z.sub_0_r, drop_0 in HG. rewrite HG.
      pose proof (annexb_go_plan (length b) b (h_info p) false false [] w') as HW. rewrite HP in HW. cbn [fst snd] in HW.
      destruct (annexb_go (length b) b (h_info p) false false [] w') as [buf wr]. cbn [snd] in HW. rewrite HW.
      eexists. split; [reflexivity|reflexivity].
    + right. exists nals, tail. split; [lia|]. split; [exact E|]. split; [exact G|]. split; [exact S|]. split; [exact HC|].
      destruct T as [->|T]; [left; split; reflexivity|]. right. split; [exact T|].
      destruct T as [T _]. destruct tail; [congruence|]. rewrite len_cons. pose proof (len_nonneg tail). replace (1 + len tail <=? 0) with false by lia. reflexivity.
Qed.

(** ** Sequence headers *)
Lemma be16_lor a b : byte a -> byte b -> Z.lor (Z.shiftl a 8) b = a * 256 + b.
Proof. unfold byte. intros Ha Hb. rewrite shiftl_mul by lia. change (2 ^ 8) with 256. apply (lor_add (a * 256) b 8); [lia|exists a; reflexivity|change (2 ^ 8) with 256; lia]. Qed.
Lemma psi_record p sps pps ext b : header_of sps pps ext b ->
  parse_specific_info p b = (mkH264 (h_info p ++ annexb [sps; pps] ++ ext) (h_buf p), Ok tt).
Proof.
  intros [v pr c l ls ns np Hs Hp]. change (2 ^ 16) with 65536 in *. unfold parse_specific_info.
  set (tl := sps ++ [np] ++ be16 (len pps) ++ pps ++ ext).
  assert (Lt : len tl = len sps + 3 + len pps + len ext) by (unfold tl; rewrite !len_app, len_be16; change (len [np]) with 1; lia).
  assert (Lb : len ([v; pr; c; l; ls; ns] ++ be16 (len sps) ++ tl) = 8 + len tl) by (rewrite !len_app, len_be16; change (len [v; pr; c; l; ls; ns]) with 6; lia).
  rewrite Lb. pose proof (len_nonneg ext). replace (8 + len tl <? 9) with false by lia.
  assert (E67 : Z.lor (Z.shiftl (at_ ([v; pr; c; l; ls; ns] ++ be16 (len sps) ++ tl) 6) 8) (at_ ([v; pr; c; l; ls; ns] ++ be16 (len sps) ++ tl) 7) = len sps).
  { unfold be16. change (at_ _ 6) with (len sps / 256 mod 256). change (at_ _ 7) with (len sps mod 256).
    rewrite be16_lor by (unfold byte; lia). lia. }
  rewrite E67. replace ((8 + len tl - 8 <? len sps) || (len sps <=? 0)) with false by lia.
  replace (8 + len tl) with (len ([v; pr; c; l; ls; ns] ++ be16 (len sps) ++ tl)).
  rewrite go_slice_take by lia. rewrite go_slice_to_end by lia.
  assert (D8 : drop ([v; pr; c; l; ls; ns] ++ be16 (len sps) ++ tl) 8 = tl) by (rewrite app_assoc; change 8 with (len ([v; pr; c; l; ls; ns] ++ be16 (len sps))); apply drop_app).
  rewrite <- drop_drop by lia. rewrite !D8. unfold tl. rewrite take_app, drop_app.
  set (t2 := [np] ++ be16 (len pps) ++ pps ++ ext).
  assert (L2 : len t2 = 3 + len pps + len ext) by (unfold t2; rewrite !len_app, len_be16; change (len [np]) with 1; lia).
  rewrite L2. replace (3 + len pps + len ext <? 4) with false by lia.
  assert (E12 : Z.lor (Z.shiftl (at_ t2 1) 8) (at_ t2 2) = len pps).
  { unfold t2, be16. change (at_ _ 1) with (len pps / 256 mod 256). change (at_ _ 2) with (len pps mod 256). rewrite be16_lor by (unfold byte; lia). lia. }
  rewrite E12. replace ((3 + len pps + len ext - 3 <? len pps) || (len pps <=? 0)) with false by lia.
  replace (drop t2 3) with (pps ++ ext) by reflexivity.
  unfold annexb, start_code. cbn [map concat]. rewrite app_nil_r, <- !app_assoc. reflexivity.
Qed.
Lemma two_bytes (s : bytes) : is_bytes s -> 2 <= len s -> exists a b r, s = a :: b :: r /\ byte a /\ byte b /\ is_bytes r.
Proof.
  intros H L. destruct s as [|a [|b r]]; try (unfold len in L; cbn in L; lia). inversion H as [|? ? Y1 Y2]; inversion Y2 as [|? ? Y3 Y4]; subst. exists a, b, r. auto.
Qed.
Lemma len_S6 (s : bytes) : 6 <= len s -> exists a b c d e f r, s = a :: b :: c :: d :: e :: f :: r.
Proof. intros L. destruct s as [|a [|b [|c [|d [|e [|f r]]]]]]; try (unfold len in L; cbn in L; lia). eauto 10. Qed.
Lemma psi_inv p b : is_bytes b ->
  (exists sps pps ext, header_of sps pps ext b) \/ parse_specific_info p b = (p, Err EOther) /\ (forall sps pps ext, ~ header_of sps pps ext b).
Proof.
  intros HB. destruct (parse_specific_info p b) as [p' r] eqn:E.
  destruct (Z.ltb_spec (len b) 9) as [L9|L9].
  { right. split; [unfold parse_specific_info in E; replace (len b <? 9) with true in E by lia; congruence|].
    intros sps pps ext H. destruct H as [v pr c l ls ns np Hs Hp]. rewrite !len_app, !len_be16 in L9. change (len [v; pr; c; l; ls; ns]) with 6 in L9. pose proof (len_nonneg ext). change (len [np]) with 1 in L9. lia. }
  destruct (len_S6 b ltac:(lia)) as (v & pr & c & l & ls & ns & r0 & ->).
  assert (HB0 : is_bytes r0) by (do 6 (apply Forall_inv_tail in HB); exact HB).
  destruct (two_bytes r0 HB0) as (s1 & s0 & r1 & -> & B1 & B0 & HB1); [rewrite !len_cons in L9; lia|].
  set (L := s1 * 256 + s0) in *.
  assert (EL : be16 L = [s1; s0]) by (apply be16_val; assumption).
  assert (HL : 0 <= L < 65536) by (unfold L, byte in *; lia).
  change (v :: pr :: c :: l :: ls :: ns :: s1 :: s0 :: r1) with ([v; pr; c; l; ls; ns] ++ [s1; s0] ++ r1) in *. rewrite <- EL in *.
  assert (Inj : forall sps pps ext, header_of sps pps ext ([v; pr; c; l; ls; ns] ++ be16 L ++ r1) ->
     exists np, L = len sps /\ r1 = sps ++ [np] ++ be16 (len pps) ++ pps ++ ext /\ 0 < len sps /\ 0 < len pps < 65536).
  { intros sps pps ext H. remember ([v; pr; c; l; ls; ns] ++ be16 L ++ r1) as b eqn:Eb. destruct H as [v' pr' c' l' ls' ns' np Hs Hp].
    cbn [app] in Eb. inversion Eb. subst. exists np. change (2 ^ 16) with 65536 in *. split; [|split; [reflexivity|lia]].
    assert (be_val (be16 (len sps)) = be_val (be16 L)) as HV by (unfold be16; congruence). rewrite !be_val_be16 in HV. lia. }
  unfold parse_specific_info in E.
  assert (Lb : len ([v; pr; c; l; ls; ns] ++ be16 L ++ r1) = 8 + len r1) by (rewrite !len_app, len_be16; change (len [v; pr; c; l; ls; ns]) with 6; lia).
  rewrite Lb in E, L9. replace (8 + len r1 <? 9) with false in E by lia.
  assert (E67 : Z.lor (Z.shiftl (at_ ([v; pr; c; l; ls; ns] ++ be16 L ++ r1) 6) 8) (at_ ([v; pr; c; l; ls; ns] ++ be16 L ++ r1) 7) = L).
  { rewrite EL. change (at_ _ 6) with s1. change (at_ _ 7) with s0. apply be16_lor; assumption. }
  rewrite E67 in E. destruct ((8 + len r1 - 8 <? L) || (L <=? 0)) eqn:EB.
  { right. split; [congruence|]. intros sps pps ext H. destruct (Inj _ _ _ H) as (np & A1 & A2 & A3 & A4).
    assert (len r1 = len sps + 3 + len pps + len ext) by (rewrite A2, !len_app, len_be16; change (len [np]) with 1; lia). pose proof (len_nonneg ext). lia. }
  replace (8 + len r1) with (len ([v; pr; c; l; ls; ns] ++ be16 L ++ r1)) in E.
  rewrite go_slice_take in E by lia. rewrite go_slice_to_end in E by lia. rewrite <- drop_drop in E by lia.
  assert (D8 : drop ([v; pr; c; l; ls; ns] ++ be16 L ++ r1) 8 = r1) by (rewrite app_assoc; change 8 with (len ([v; pr; c; l; ls; ns] ++ be16 L)); apply drop_app).
  rewrite !D8 in E. set (sps := take r1 L) in *. set (t2 := drop r1 L) in *.
  assert (Er1 : r1 = sps ++ t2) by (symmetry; apply take_drop).
  assert (Lsps : len sps = L) by (apply len_take; lia).
  assert (T2 : forall sps' pps ext, header_of sps' pps ext ([v; pr; c; l; ls; ns] ++ be16 L ++ r1) -> exists np, t2 = [np] ++ be16 (len pps) ++ pps ++ ext /\ 0 < len pps < 65536).
  { intros sps' pps ext H. destruct (Inj _ _ _ H) as (np & A1 & A2 & A3 & A4). exists np. split; [|exact A4]. unfold t2. rewrite A1, A2. apply drop_app. }
  destruct (len t2 <? 4) eqn:E4.
  { right. split; [congruence|]. intros sps' pps ext H. destruct (T2 _ _ _ H) as (np & A1 & A2).
    rewrite A1, !len_app, len_be16 in E4. change (len [np]) with 1 in E4. pose proof (len_nonneg ext). lia. }
  assert (HBt : is_bytes t2) by (apply is_bytes_drop, HB1).
  destruct t2 as [|np t3] eqn:Et2; [discriminate|]. rewrite <- Et2 in *.
  assert (HB3 : is_bytes t3) by (rewrite Et2 in HBt; apply Forall_inv_tail in HBt; exact HBt).
  destruct (two_bytes t3 HB3) as (p1 & p0 & t4 & -> & P1 & P0 & HB4); [rewrite Et2, len_cons in E4; lia|].
  set (M := p1 * 256 + p0) in *. assert (EM : be16 M = [p1; p0]) by (apply be16_val; assumption).
  assert (HM : 0 <= M < 65536) by (unfold M, byte in *; lia).
  assert (E12 : Z.lor (Z.shiftl (at_ t2 1) 8) (at_ t2 2) = M).
  { rewrite Et2. change (at_ _ 1) with p1. change (at_ _ 2) with p0. apply be16_lor; assumption. }
  rewrite E12 in E. assert (Lt2 : len t2 = 3 + len t4) by (rewrite Et2, !len_cons; lia). rewrite Lt2 in E.
  destruct ((3 + len t4 - 3 <? M) || (M <=? 0)) eqn:EC.
  { right. split; [congruence|]. intros sps' pps ext H. destruct (T2 _ _ _ H) as (np' & A1 & A2).
    assert (EV : M = len pps).
    { rewrite Et2 in A1. unfold be16 in A1. cbn [app] in A1. injection A1 as _ I1 I2 _. clear - I1 I2 A2. unfold u8 in *. unfold M. rewrite I1, I2. lia. }
    assert (len t2 = 3 + len pps + len ext) by (rewrite A1, !len_app, len_be16; change (len [np']) with 1; lia). pose proof (len_nonneg ext). lia. }
  left. exists sps, (take t4 M), (drop t4 M).
  assert (Lp : len (take t4 M) = M) by (apply len_take; lia).
  assert (EF : [v; pr; c; l; ls; ns] ++ be16 L ++ r1 = [v; pr; c; l; ls; ns] ++ be16 (len sps) ++ sps ++ [np] ++ be16 (len (take t4 M)) ++ take t4 M ++ drop t4 M).
  { rewrite Lsps, Lp, take_drop, EM. rewrite Er1 at 1. rewrite Et2. reflexivity. }
  rewrite EF. apply Hd_record; change (2 ^ 16) with 65536; lia.
Qed.

Lemma h264_parse_state p b seq w : is_bytes b ->
  h_info (fst (h264_parse p b seq w)) =
    h_info p ++ (if seq then match parse_specific_info (mkH264 [] []) b with (p', Ok _) => h_info p' | _ => [] end else []).
Proof.
  intros HB. unfold h264_parse. destruct (len b =? 0) eqn:E0.
  { assert (b = []) as -> by (apply len_zero; lia). cbn. destruct seq; rewrite app_nil_r; reflexivity. }
  destruct seq.
  - destruct (psi_inv p b HB) as [(sps & pps & ext & H)|[H1 H2]].
    + rewrite !(psi_record _ _ _ _ _ H). reflexivity.
    + rewrite H1. destruct (psi_inv (mkH264 [] []) b HB) as [(sps & pps & ext & H)|[H3 _]]; [elim (H2 _ _ _ H)|].
      rewrite H3. cbn. rewrite app_nil_r. reflexivity.
  - rewrite app_nil_r. destruct (is_start b); [reflexivity|]. unfold get_annexb. destruct (len b <? 4); [reflexivity|].
    destruct (write nalu_aud w) as [w' [u|e| |]]; try reflexivity.
    destruct (annexb_loop (length b) b (h_info p) 0 (len b) false false [] w'). reflexivity.
Qed.

(** ** Codec histories *)
Lemma codec_parse_route c p w :
  codec_parse c p w =
  match route_of p with
  | RNone => (c, (w, Err EOther))
  | RNoIface => (c, (w, Panic))
  | RAvc s m => let '(h, wr) := h264_parse (or_new (cp_h264 c) new_h264) m s w in (mkCodec (cp_aac c) (cp_mp3 c) (Some h), wr)
  | RAac t m => let '(a, wr) := aac_parse (or_new (cp_aac c) new_aac) m t w in (mkCodec (Some a) (cp_mp3 c) (cp_h264 c), wr)
  | RMp3 m => let '(x, r) := mp3_parse (or_new (cp_mp3 c) new_mp3) m in (mkCodec (cp_aac c) (Some x) (cp_h264 c), (w, r))
  end.
Proof.
  unfold codec_parse, route_of, video_of, audio_of. destruct (p_header p) as [h|]; [|reflexivity]. destruct (p_media p) as [m|]; [|reflexivity].
  destruct (p_type p =? PktVideo).
  - destruct (h_video h) as [v|]; [|reflexivity]. destruct (v_avc v); reflexivity.
  - destruct (p_type p =? PktAudio); [|reflexivity]. destruct (h_audio h) as [a|]; [|reflexivity]. destruct (a_aac a); [reflexivity|]. destruct (a_mp3 a); reflexivity.
Qed.

(** State of the three parsers after a history. *)
Lemma codec_run_state ops : forall c, let c' := fst (codec_run c ops) in
  or_new (cp_h264 c') new_h264 = fst (h264_run (or_new (cp_h264 c) new_h264) (avc_ops ops)) /\
  cp_aac c' = (match aac_ops ops with [] => cp_aac c | _ => Some (fst (aac_run (or_new (cp_aac c) new_aac) (aac_ops ops))) end) /\
  cp_mp3 c' = (match mp3_ops ops with [] => cp_mp3 c | _ => Some (fst (mp3_run (or_new (cp_mp3 c) new_mp3) (mp3_ops ops))) end).
Proof.
  induction ops as [|[p w] ops IH]; intros c; cbn [codec_run].
  - cbn. auto.
  - rewrite codec_parse_route. unfold avc_ops, aac_ops, mp3_ops. cbn [flat_map fst snd].
    fold (avc_ops ops) (aac_ops ops) (mp3_ops ops).
    destruct (route_of p) as [| |s m|t m|m]; cbn [app].
    + specialize (IH c). destruct (codec_run c ops). exact IH.
    + specialize (IH c). destruct (codec_run c ops). exact IH.
    + cbn [h264_run]. destruct (h264_parse (or_new (cp_h264 c) new_h264) m s w) as [h wr].
      specialize (IH (mkCodec (cp_aac c) (cp_mp3 c) (Some h))). destruct (codec_run _ ops). cbn [fst cp_aac cp_mp3 cp_h264 or_new] in *.
      destruct (h264_run h (avc_ops ops)). exact IH.
    + cbn [aac_run]. destruct (aac_parse (or_new (cp_aac c) new_aac) m t w) as [a wr].
      specialize (IH (mkCodec (Some a) (cp_mp3 c) (cp_h264 c))). destruct (codec_run _ ops). cbn [fst cp_aac cp_mp3 cp_h264 or_new] in *.
      destruct IH as (I1 & I2 & I3). split; [exact I1|]. split; [|exact I3]. rewrite I2.
      destruct (aac_ops ops) as [|o os]; [reflexivity|]. destruct (aac_run a (o :: os)). reflexivity.
    + cbn [mp3_run]. destruct (mp3_parse (or_new (cp_mp3 c) new_mp3) m) as [x r].
      specialize (IH (mkCodec (cp_aac c) (Some x) (cp_h264 c))). destruct (codec_run _ ops). cbn [fst cp_aac cp_mp3 cp_h264 or_new] in *.
      destruct IH as (I1 & I2 & I3). split; [exact I1|]. split; [exact I2|]. rewrite I3.
      destruct (mp3_ops ops) as [|o os]; [reflexivity|]. destruct (mp3_run x (o :: os)). reflexivity.
Qed.
Lemma codec_run_app a : forall c b, codec_run c (a ++ b) =
  let '(c1, r1) := codec_run c a in let '(c2, r2) := codec_run c1 b in (c2, r1 ++ r2).
Proof.
  induction a as [|[p w] a IH]; intros c b; cbn [app codec_run].
  - destruct (codec_run c b). reflexivity.
  - destruct (codec_parse c p w) as [c1 r]. rewrite IH. destruct (codec_run c1 a) as [c2 r1]. destruct (codec_run c2 b). reflexivity.
Qed.
