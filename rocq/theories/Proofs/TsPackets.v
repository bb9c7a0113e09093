(** Lemmas about container/ts: arrays, single packets, the packet loop, PES headers. *)
From Verif Require Import Base.Go Base.GoFacts Base.IO Proofs.IOFacts Model.Packet Model.Crc32 Model.Ts Spec.Crc32 Spec.Ts Proofs.Crc32.
Local Ltac Zify.zify_post_hook ::= Z.div_mod_to_equations.

(** * Arrays *)
Lemma skipn_skipn {A} (l : list A) : forall n m, skipn n (skipn m l) = skipn (n + m) l.
Proof.
  induction l as [|x l IH]; intros n m; [rewrite !skipn_nil; reflexivity|]. destruct m as [|m]; [rewrite Nat.add_0_r; reflexivity|].
  rewrite Nat.add_succ_r. cbn [skipn]. apply IH.
Qed.
Lemma upd_app P x R b : upd (P ++ x :: R) (len P) b = Ok (P ++ b :: R).
Proof.
  unfold upd. rewrite len_app, len_cons. pose proof (len_nonneg P). pose proof (len_nonneg R).
  replace ((0 <=? len P) && (len P <? len P + (1 + len R))) with true by lia.
  rewrite take_app. change (x :: R) with ([x] ++ R). rewrite app_assoc. replace (len P + 1) with (len (P ++ [x])) by (rewrite len_app; reflexivity).
  rewrite drop_app. reflexivity.
Qed.
Lemma take_all (b : bytes) n : len b <= n -> take b n = b.
Proof. intros H. unfold take, len in *. apply firstn_all2. lia. Qed.
Lemma copy_app P R b : len b <= len R -> copy_at (P ++ R) (len P) b = Ok (P ++ b ++ drop R (len b)).
Proof.
  intros H. unfold copy_at. rewrite len_app. pose proof (len_nonneg P). pose proof (len_nonneg R). pose proof (len_nonneg b).
  replace ((0 <=? len P) && (len P <=? len P + len R)) with true by lia. rewrite take_app. cbv zeta. rewrite take_all by lia.
  do 3 f_equal. unfold drop. replace (Z.to_nat (len P + len b)) with (length P + Z.to_nat (len b))%nat by (unfold len; lia).
  rewrite skipn_app, skipn_all2 by lia. cbn [app]. f_equal. lia.
Qed.
Lemma drop_S (x : Z) R n : drop (x :: R) (Z.of_nat (S n)) = drop R (Z.of_nat n).
Proof. unfold drop. rewrite !Nat2Z.id. reflexivity. Qed.
Lemma fill_app n : forall P R b, Z.of_nat n <= len R -> fill (P ++ R) (len P) n b = Ok (P ++ repeat b n ++ drop R (Z.of_nat n)).
Proof.
  induction n as [|n IH]; intros P R b H; cbn [fill repeat]; [reflexivity|].
  destruct R as [|x R]; [unfold len in H; cbn [length] in H; lia|]. rewrite len_cons in H. rewrite upd_app. cbn [bind].
  change (b :: R) with ([b] ++ R). rewrite app_assoc. replace (len P + 1) with (len (P ++ [b])) by (rewrite len_app; reflexivity).
  rewrite IH by lia. rewrite <- app_assoc, drop_S. reflexivity.
Qed.
Lemma write_seq_app b : forall P R, len b <= len R -> write_seq (P ++ R) (len P) b = Ok (P ++ b ++ drop R (len b)).
Proof.
  induction b as [|x b IH]; intros P R H; cbn [write_seq]; [reflexivity|].
  destruct R as [|y R]; [unfold len in H; cbn [length] in H; lia|]. rewrite !len_cons in H. rewrite upd_app. cbn [bind].
  change (x :: R) with ([x] ++ R). rewrite app_assoc. replace (len P + 1) with (len (P ++ [x])) by (rewrite len_app; reflexivity).
  rewrite IH by lia. rewrite <- app_assoc. cbn [app]. do 4 f_equal. unfold len at 2. cbn [length]. rewrite drop_S. reflexivity.
Qed.
(** Writing past the end. *)
Lemma upd_out s i b : len s <= i -> upd s i b = Panic.
Proof. intros H. unfold upd. replace ((0 <=? i) && (i <? len s)) with false by lia. reflexivity. Qed.
Lemma upd_cases s i b : 0 <= i -> (upd s i b = Panic /\ len s <= i) \/ (exists s', upd s i b = Ok s' /\ len s' = len s /\ i < len s).
Proof.
  intros H. destruct (Z_lt_dec i (len s)) as [Hi|Hi]; [right|left; split; [apply upd_out; lia|lia]].
  unfold upd. replace ((0 <=? i) && (i <? len s)) with true by lia. eexists. split; [reflexivity|]. split; [|exact Hi].
  rewrite len_app, len_cons, len_take, len_drop by lia. lia.
Qed.
Lemma write_seq_out b : forall s i, 0 <= i -> b <> [] -> len s < i + len b -> write_seq s i b = Panic.
Proof.
  induction b as [|x b IH]; intros s i Hi Hb H; [congruence|]. cbn [write_seq]. rewrite len_cons in H.
  destruct (upd_cases s i x Hi) as [(-> & _)|(s' & -> & E & L)]; [reflexivity|]. cbn [bind].
  destruct b as [|y b]; [change (len []) with 0 in H; lia|]. apply IH; [lia|discriminate|lia].
Qed.
Lemma fill_out n : forall s i b, 0 <= i -> (0 < n)%nat -> len s < i + Z.of_nat n -> fill s i n b = Panic.
Proof.
  induction n as [|n IH]; intros s i b Hi Hn H; [lia|]. cbn [fill].
  destruct (upd_cases s i b Hi) as [(-> & _)|(s' & -> & E & L)]; [reflexivity|]. cbn [bind].
  destruct n as [|n]; [lia|]. apply IH; lia.
Qed.
Lemma write_stuff_out s i remain : 0 <= i -> len s < i + u8 (remain - 1) + 1 -> 0 < u8 (remain - 1) -> write_stuff s i remain = Panic.
Proof.
  intros Hi H Hn. unfold write_stuff. set (n := u8 (remain - 1)) in *. cbv zeta.
  destruct (upd_cases s i n Hi) as [(-> & _)|(s1 & -> & E & L)]; [reflexivity|]. cbn [bind]. replace (0 <? n) with true by lia.
  destruct (upd_cases s1 (i + 1) 0 ltac:(lia)) as [(-> & _)|(s2 & -> & E2 & L2)]; [reflexivity|]. cbn [bind]. apply fill_out; lia.
Qed.

(** * One packet *)
Definition stuffing (n : Z) : bytes := if n =? 1 then [0] else (n - 1) :: 0 :: repeat 255 (Z.to_nat (n - 2)).
Definition pcr_bytes (pcr : Z) : bytes :=
  [u8 (Z.shiftr pcr 25); u8 (Z.shiftr pcr 17); u8 (Z.shiftr pcr 9); u8 (Z.shiftr pcr 1); u8 (Z.lor (Z.shiftl (Z.land pcr 1) 7) 0x7e); 0].
Lemma len_stuffing n : 1 <= n -> len (stuffing n) = n.
Proof. intros H. unfold stuffing. destruct (Z.eqb_spec n 1) as [->|Hn]; [reflexivity|]. rewrite !len_cons, len_repeat. lia. Qed.

Lemma write_stuff_app P R n : 1 <= n <= 184 -> n <= len R -> write_stuff (P ++ R) (len P) n = Ok (P ++ stuffing n ++ drop R n).
Proof.
  intros H HR. unfold write_stuff. replace (u8 (n - 1)) with (n - 1) by (unfold u8; lia). cbv zeta.
  destruct R as [|x R]; [unfold len in HR; cbn [length] in HR; lia|]. rewrite upd_app. cbn [bind]. unfold stuffing. rewrite len_cons in HR.
  destruct (Z.eqb_spec n 1) as [->|Hn]; [reflexivity|]. replace (0 <? n - 1) with true by lia.
  destruct R as [|y R]; [unfold len in HR; cbn [length] in HR; lia|]. rewrite len_cons in HR.
  change ((n - 1) :: y :: R) with ([n - 1] ++ y :: R). rewrite app_assoc.
  replace (len P + 1) with (len (P ++ [n - 1])) by (rewrite len_app; reflexivity). rewrite upd_app. cbn [bind].
  change (0 :: R) with ([0] ++ R). rewrite app_assoc.
  replace (len P + 2) with (len ((P ++ [n - 1]) ++ [0])) by (rewrite !len_app; unfold len; cbn [length]; lia).
  rewrite fill_app by lia. rewrite <- !app_assoc. cbn [app]. replace (Z.to_nat (n - 1 - 1)) with (Z.to_nat (n - 2)) by lia.
  do 5 f_equal. rewrite Z2Nat.id by lia. unfold drop. replace (Z.to_nat n) with (S (S (Z.to_nat (n - 2)))) by lia. reflexivity.
Qed.

Lemma at_app3 a b c d R i : at_ ([a; b; c; d] ++ R) i = at_ (a :: b :: c :: d :: R) i. Proof. reflexivity. Qed.
Lemma upd3 a b c d R x : upd (a :: b :: c :: d :: R) 3 x = Ok (a :: b :: c :: x :: R).
Proof. change 3 with (len [a; b; c]). change (a :: b :: c :: d :: R) with ([a; b; c] ++ d :: R). apply (upd_app [a; b; c]). Qed.
Lemma or3 a b c d R x : or_at (a :: b :: c :: d :: R) 3 x = Ok (a :: b :: c :: Z.lor d x :: R).
Proof.
  unfold or_at, go_at. rewrite !len_cons. pose proof (len_nonneg R). replace ((0 <=? 3) && (3 <? 1 + (1 + (1 + (1 + len R))))) with true by lia.
  cbn [bind]. change (at_ (a :: b :: c :: d :: R) 3) with d. apply upd3.
Qed.
Lemma or1 a b c d R x : or_at (a :: b :: c :: d :: R) 1 x = Ok (a :: Z.lor b x :: c :: d :: R).
Proof.
  unfold or_at, go_at. rewrite !len_cons. pose proof (len_nonneg R). replace ((0 <=? 1) && (1 <? 1 + (1 + (1 + (1 + len R))))) with true by lia.
  cbn [bind]. change (at_ (a :: b :: c :: d :: R) 1) with b. change (a :: b :: c :: d :: R) with ([a] ++ b :: c :: d :: R). apply (upd_app [a]).
Qed.
Lemma pkt_header_ok pkt a b c d first cc : 4 <= len pkt ->
  pkt_header pkt [a; b; c; d] first cc = Ok ([a; if first then Z.lor b 0x40 else b; c; Z.lor d cc] ++ drop pkt 4).
Proof.
  intros H. unfold pkt_header. pose proof (copy_app [] pkt [a; b; c; d] H) as E. cbn [app] in E. change (len []) with 0 in E. rewrite E. cbn [bind].
  change (len [a; b; c; d]) with 4. destruct first; [rewrite or1|]; cbn [bind]; rewrite or3; reflexivity.
Qed.
Lemma pkt_pcr_ok a b c d R dts : 8 <= len R ->
  pkt_pcr ([a; b; c; d] ++ R) true dts = Ok (([a; b; c; Z.lor d 0x20] ++ 7 :: 0x50 :: pcr_bytes dts) ++ drop R 8, 12).
Proof.
  intros H. unfold pkt_pcr. cbn [app]. rewrite or3. cbn [bind]. destruct R as [|r0 [|r1 R]]; try (unfold len in H; cbn [length] in H; lia).
  rewrite !len_cons in H. change (upd (a :: b :: c :: Z.lor d 32 :: r0 :: r1 :: R) 4 7) with (upd ([a; b; c; Z.lor d 32] ++ r0 :: r1 :: R) (len [a; b; c; Z.lor d 32]) 7).
  rewrite upd_app. cbn [bind app]. change (upd (a :: b :: c :: Z.lor d 32 :: 7 :: r1 :: R) 5 80) with (upd ([a; b; c; Z.lor d 32; 7] ++ r1 :: R) (len [a; b; c; Z.lor d 32; 7]) 80).
  rewrite upd_app. cbn [bind]. unfold write_pcr. fold (pcr_bytes dts).
  change ([a; b; c; Z.lor d 32; 7] ++ 80 :: R) with ([a; b; c; Z.lor d 32; 7; 80] ++ R).
  change 6 with (len [a; b; c; Z.lor d 32; 7; 80]). rewrite write_seq_app by (change (len (pcr_bytes dts)) with 6; lia). cbn [bind].
  change (len (pcr_bytes dts)) with 6. unfold go_at. rewrite !len_app. pose proof (len_nonneg (drop R 6)) as HD.
  change (len [a; b; c; Z.lor d 32; 7; 80]) with 6. change (len (pcr_bytes dts)) with 6.
  replace ((0 <=? 4) && (4 <? 6 + (6 + len (drop R 6)))) with true by lia. cbn [bind].
  change (at_ ([a; b; c; Z.lor d 32; 7; 80] ++ pcr_bytes dts ++ drop R 6) 4) with 7. change (u8 (4 + u8 (1 + 7))) with 12.
  change (drop (r0 :: r1 :: R) 8) with (drop R 6). reflexivity.
Qed.

(** What is still to be sent. *)
Definition pending (pesh media : bytes) (l : mloop) : bytes := slice pesh (l_head l) (l_head l + l_hdr l) ++ drop media (l_data l).
Definition linv (pesh media : bytes) (l : mloop) : Prop :=
  0 <= l_head l /\ 0 <= l_hdr l <= 255 /\ l_head l + l_hdr l <= len pesh /\ 0 <= l_data l <= len media /\
  l_total l = l_hdr l + (len media - l_data l).
Lemma len_slice s a b : 0 <= a <= b -> b <= len s -> len (slice s a b) = b - a.
Proof. intros H1 H2. unfold slice, len in *. rewrite firstn_length, skipn_length. lia. Qed.
Lemma pending_len pesh media l : linv pesh media l -> len (pending pesh media l) = l_total l.
Proof. intros (H1 & H2 & H3 & H4 & H5). unfold pending. rewrite len_app, len_slice, len_drop by lia. lia. Qed.
Lemma slice_split s a n m : 0 <= a -> 0 <= n <= m -> slice s a (a + m) = slice s a (a + n) ++ slice s (a + n) (a + m).
Proof.
  intros Ha H. unfold slice. replace (Z.to_nat (a + m - a)) with (Z.to_nat n + Z.to_nat (m - n))%nat by lia.
  replace (Z.to_nat (a + n - a)) with (Z.to_nat n) by lia. replace (Z.to_nat (a + m - (a + n))) with (Z.to_nat (m - n)) by lia.
  rewrite <- (firstn_skipn (Z.to_nat n) (firstn (Z.to_nat n + Z.to_nat (m - n)) (skipn (Z.to_nat a) s))).
  rewrite firstn_firstn, Nat.min_l by lia. f_equal. rewrite skipn_firstn_comm, skipn_skipn. f_equal; [lia|]. f_equal. lia.
Qed.
Lemma drop_split (s : bytes) a n : 0 <= a -> 0 <= n -> drop s a = slice s a (a + n) ++ drop s (a + n).
Proof.
  intros Ha Hn. unfold drop, slice. replace (Z.to_nat (a + n - a)) with (Z.to_nat n) by lia.
  rewrite <- (firstn_skipn (Z.to_nat n) (skipn (Z.to_nat a) s)) at 1. f_equal. rewrite skipn_skipn. f_equal. lia.
Qed.
Lemma take_app2 (a b : bytes) n : len a <= n -> take (a ++ b) n = a ++ take b (n - len a).
Proof. intros H. unfold take, len in *. rewrite firstn_app, firstn_all2 by lia. f_equal. f_equal. lia. Qed.
Lemma take_app1 (a b : bytes) n : n <= len a -> take (a ++ b) n = take a n.
Proof. intros H. unfold take, len in *. rewrite firstn_app. replace (Z.to_nat n - length a)%nat with 0%nat by lia. cbn [firstn]. apply app_nil_r. Qed.
Lemma drop_app2 (a b : bytes) n : len a <= n -> drop (a ++ b) n = drop b (n - len a).
Proof. intros H. unfold drop, len in *. rewrite skipn_app, skipn_all2 by lia. cbn [app]. f_equal. lia. Qed.
Lemma drop_app1 (a b : bytes) n : n <= len a -> drop (a ++ b) n = drop a n ++ b.
Proof. intros H. unfold drop, len in *. rewrite skipn_app. replace (Z.to_nat n - length a)%nat with 0%nat by lia. reflexivity. Qed.
Lemma drop_drop2 (s : bytes) a b : 0 <= a -> 0 <= b -> drop (drop s a) b = drop s (a + b).
Proof. intros. unfold drop. rewrite skipn_skipn. f_equal. lia. Qed.
Lemma slice_nil s a : slice s a (a + 0) = []. Proof. unfold slice. replace (Z.to_nat (a + 0 - a)) with 0%nat by lia. reflexivity. Qed.
Lemma go_slice_ok s a b : 0 <= a <= b -> b <= len s -> go_slice s a b = Ok (slice s a b).
Proof. intros H1 H2. unfold go_slice. replace ((0 <=? a) && (a <=? b) && (b <=? len s)) with true by lia. reflexivity. Qed.

Lemma pkt_data_ok P R media pesh n l : linv pesh media l -> l_hdr l = 0 -> 0 <= n <= l_total l -> n <= len R ->
  exists l', pkt_data (P ++ R) media (len P) n l = Ok (P ++ take (pending pesh media l) n ++ drop R n, l') /\
    linv pesh media l' /\ pending pesh media l' = drop (pending pesh media l) n /\ l_first l' = l_first l.
Proof.
  intros (H1 & H2 & H3 & H4 & H5) H0 Hn HR. unfold pkt_data, pending. rewrite H0, slice_nil. cbn [app].
  destruct (Z.ltb_spec 0 n) as [Hp|Hp].
  - replace (len media <? l_data l + n) with false by lia. rewrite go_slice_ok by lia. cbn [bind].
    assert (HL : len (slice media (l_data l) (l_data l + n)) = n) by (rewrite len_slice; lia).
    rewrite copy_app by lia. cbn [bind]. rewrite HL. eexists. split.
    { do 3 f_equal. rewrite (drop_split media (l_data l) n) by lia. rewrite take_app1 by lia. rewrite take_all by lia. reflexivity. }
    unfold linv. cbn [l_total l_hdr l_head l_data l_first]. split; [lia|]. split; [|reflexivity].
    rewrite slice_nil. cbn [app]. rewrite drop_drop2 by lia. reflexivity.
  - assert (n = 0) as -> by lia. exists l. cbn [app]. split; [reflexivity|]. split; [unfold linv; lia|]. split; [|reflexivity].
    rewrite H0, slice_nil. reflexivity.
Qed.
Lemma pkt_body_ok P R media pesh n l : linv pesh media l -> 0 <= n <= l_total l -> n <= len R -> len P + n <= 188 ->
  exists l',
    (let* (p, i, maxp, l) := pkt_head (P ++ R) pesh (len P) n l in pkt_data p media i maxp l)
      = Ok (P ++ take (pending pesh media l) n ++ drop R n, l') /\
    linv pesh media l' /\ pending pesh media l' = drop (pending pesh media l) n /\ l_first l' = l_first l.
Proof.
  intros HI Hn HR HP. pose proof HI as (H1 & H2 & H3 & H4 & H5). pose proof (len_nonneg P) as HP0. unfold pkt_head.
  destruct (Z.ltb_spec 0 (l_hdr l)) as [Hh|Hh].
  - replace (u8 (l_hdr l)) with (l_hdr l) by (unfold u8; lia). destruct (Z.leb_spec (l_hdr l) n) as [Hle|Hle].
    + rewrite go_slice_ok by lia. cbn [bind]. set (hd := slice pesh (l_head l) (l_head l + l_hdr l)).
      assert (HL : len hd = l_hdr l) by (unfold hd; rewrite len_slice; lia).
      rewrite copy_app by lia. cbn [bind]. rewrite HL. rewrite app_assoc.
      replace (u8 (len P + l_hdr l)) with (len (P ++ hd)) by (rewrite len_app; unfold u8; lia).
      replace (u8 (n - l_hdr l)) with (n - l_hdr l) by (unfold u8; lia).
      set (l1 := mkL _ _ _ _ _).
      assert (HI1 : linv pesh media l1) by (unfold linv, l1; cbn; lia).
      destruct (pkt_data_ok (P ++ hd) (drop R (l_hdr l)) media pesh (n - l_hdr l) l1 HI1) as (l' & E & HI' & EP & EF).
      { unfold l1; cbn; lia. } { unfold l1; cbn; lia. } { rewrite len_drop; lia. }
      exists l'. rewrite E. split; [|split; [exact HI'|split; [|exact EF]]].
      * f_equal. f_equal. unfold pending at 2. fold hd. rewrite take_app2 by lia. rewrite <- !app_assoc. do 2 f_equal. rewrite HL.
        unfold pending, l1. cbn [l_head l_hdr l_data]. replace (l_head l + l_hdr l + (l_hdr l - l_hdr l)) with (l_head l + l_hdr l + 0) by lia.
        rewrite slice_nil. cbn [app]. f_equal. rewrite drop_drop2 by lia. f_equal. lia.
      * rewrite EP. unfold pending at 2. fold hd. rewrite drop_app2 by lia. rewrite HL. f_equal. unfold pending, l1. cbn [l_head l_hdr l_data].
        replace (l_head l + l_hdr l + (l_hdr l - l_hdr l)) with (l_head l + l_hdr l + 0) by lia. rewrite slice_nil. reflexivity.
    + rewrite go_slice_ok by lia. cbn [bind]. set (hd := slice pesh (l_head l) (l_head l + n)).
      assert (HL : len hd = n) by (unfold hd; rewrite len_slice; lia).
      rewrite copy_app by lia. cbn [bind]. rewrite HL. replace (u8 (n - n)) with 0 by (unfold u8; lia).
      unfold pkt_data. change (0 <? 0) with false. cbv iota. eexists. split.
      { do 4 f_equal. unfold pending. rewrite (slice_split pesh (l_head l) n (l_hdr l)) by lia. fold hd. rewrite <- app_assoc, take_app1 by lia.
        rewrite take_all by lia. reflexivity. }
      unfold linv. cbn [l_total l_hdr l_head l_data l_first]. split; [lia|]. split; [|reflexivity].
      unfold pending. cbn [l_total l_hdr l_head l_data l_first]. rewrite (slice_split pesh (l_head l) n (l_hdr l)) by lia. fold hd.
      rewrite <- app_assoc, drop_app2 by lia. rewrite HL, Z.sub_diag, drop_0. f_equal. f_equal. lia.
  - cbn [bind]. apply pkt_data_ok; try assumption; lia.
Qed.

(** The packets as bytes. [pcr]: this packet carries the PCR. *)
Definition room (pcr : bool) : Z := if pcr then 176 else 184.
Definition raw_packet (first pcr : bool) (hi lo cc dts : Z) (D : bytes) : bytes :=
  [0x47; if first then Z.lor hi 0x40 else hi; lo; if pcr || (len D <? 184) then 48 + cc else 16 + cc]
  ++ (if pcr then 7 :: 0x50 :: pcr_bytes dts else [])
  ++ (if len D <? 184 then stuffing (room pcr - len D) else [])
  ++ take D (room pcr).
Lemma lor16 cc : 0 <= cc < 16 -> Z.lor 16 cc = 16 + cc. Proof. intros H. apply (lor_disj 1 cc 4); lia. Qed.
Lemma lor32 cc : 0 <= cc < 16 -> Z.lor (Z.lor 16 cc) 32 = 48 + cc.
Proof. intros H. rewrite lor16 by lia. rewrite Z.lor_comm. change 32 with (1 * 2 ^ 5). rewrite lor_disj by lia. lia. Qed.
Lemma lor3232 cc : 0 <= cc < 16 -> Z.lor (Z.lor (Z.lor 16 cc) 32) 32 = 48 + cc.
Proof. intros H. rewrite <- Z.lor_assoc. change (Z.lor 32 32) with 32. apply lor32, H. Qed.

Lemma build_packet_ok pkt hi lo pesh media cc dts key l :
  len pkt = 188 -> 0 <= cc < 16 -> linv pesh media l -> 0 < l_total l -> (l_first l && key = true -> ~ 176 <= l_total l <= 183) ->
  exists l', build_packet pkt [0x47; hi; lo; 0x10] pesh media cc dts key l
      = Ok (raw_packet (l_first l) (l_first l && key) hi lo cc dts (pending pesh media l), l') /\
    linv pesh media l' /\ pending pesh media l' = drop (pending pesh media l) (room (l_first l && key)) /\ l_first l' = l_first l.
Proof.
  intros HP Hcc HI HT Hno. set (D := pending pesh media l). assert (HD : len D = l_total l) by (apply pending_len; exact HI).
  unfold build_packet. rewrite pkt_header_ok by lia. cbn [bind]. set (b1 := if l_first l then Z.lor hi 64 else hi).
  assert (HR : len (drop pkt 4) = 184) by (rewrite len_drop; lia).
  destruct (l_first l && key) eqn:EK.
  - specialize (Hno eq_refl). rewrite pkt_pcr_ok by lia. cbn [bind]. rewrite drop_drop2 by lia. change (4 + 8) with 12.
    assert (HR2 : len (drop pkt 12) = 176) by (rewrite len_drop; lia). unfold pkt_stuff. change (u8 (188 - 12)) with 176.
    set (P := [71; b1; lo; Z.lor (Z.lor 16 cc) 32] ++ 7 :: 80 :: pcr_bytes dts).
    assert (HPL : len P = 12) by reflexivity. unfold raw_packet, room. rewrite HD. cbn [orb].
    destruct (Z.ltb_spec (l_total l) 184) as [Hs|Hs].
    + replace (u8 (176 - u8 (l_total l))) with (176 - l_total l) by (unfold u8; lia).
      unfold P. cbn [app]. rewrite or3. cbn [bind]. set (P' := [71; b1; lo; Z.lor (Z.lor (Z.lor 16 cc) 32) 32] ++ 7 :: 80 :: pcr_bytes dts).
      change (71 :: b1 :: lo :: Z.lor (Z.lor (Z.lor 16 cc) 32) 32 :: 7 :: 80 :: pcr_bytes dts ++ drop pkt 12) with (P' ++ drop pkt 12).
      change 12 with (len P') at 2. rewrite write_stuff_app by lia. cbn [bind].
      set (R := drop (drop pkt 12) (176 - l_total l)). assert (HRR : len R = l_total l) by (unfold R; rewrite len_drop; lia).
      rewrite app_assoc. replace (u8 (12 + (176 - l_total l))) with (len (P' ++ stuffing (176 - l_total l))).
      2:{ rewrite len_app, len_stuffing by lia. change (len P') with 12. unfold u8. lia. }
      replace (u8 (l_total l)) with (l_total l) by (unfold u8; lia).
      destruct (pkt_body_ok (P' ++ stuffing (176 - l_total l)) R media pesh (l_total l) l HI) as (l' & E & HI' & EP & EF); [lia|lia| |].
      { rewrite len_app, len_stuffing by lia. change (len P') with 12. lia. }
      cbn beta iota. rewrite E. exists l'. fold D in EP |- *. split; [|split; [exact HI'|split; [|exact EF]]].
      * do 2 f_equal. unfold P'. rewrite lor3232 by exact Hcc. rewrite <- !app_assoc. cbn [app]. rewrite (take_all D 176) by lia.
        rewrite (take_all D (l_total l)) by lia. do 11 f_equal. repeat f_equal. rewrite <- (app_nil_r D) at 2. f_equal. apply len_zero. rewrite len_drop; lia.
      * rewrite EP. unfold drop. rewrite !skipn_all2 by (unfold len in HD; lia). reflexivity.
    + change 12 with (len P) at 2. cbn [bind].
      destruct (pkt_body_ok P (drop pkt 12) media pesh 176 l HI) as (l' & E & HI' & EP & EF); [lia|lia|rewrite HPL; lia|].
      rewrite HPL in E |- *. cbn beta iota. rewrite E. exists l'. fold D in EP |- *. split; [|split; [exact HI'|split; [exact EP|exact EF]]].
      do 2 f_equal. unfold P. rewrite lor32 by exact Hcc. rewrite <- !app_assoc. cbn [app]. do 11 f_equal. repeat f_equal.
      rewrite <- (app_nil_r (take D 176)) at 2. f_equal. apply len_zero. rewrite len_drop; lia.
  - unfold pkt_pcr. cbn [bind]. unfold pkt_stuff. change (u8 (188 - 4)) with 184. unfold raw_packet, room. rewrite HD. cbn [orb].
    destruct (Z.ltb_spec (l_total l) 184) as [Hs|Hs].
    + replace (u8 (184 - u8 (l_total l))) with (184 - l_total l) by (unfold u8; lia).
      cbn [app]. rewrite or3. cbn [bind]. set (P' := [71; b1; lo; Z.lor (Z.lor 16 cc) 32]).
      change (71 :: b1 :: lo :: Z.lor (Z.lor 16 cc) 32 :: drop pkt 4) with (P' ++ drop pkt 4).
      change 4 with (len P') at 2. rewrite write_stuff_app by lia. cbn [bind].
      set (R := drop (drop pkt 4) (184 - l_total l)). assert (HRR : len R = l_total l) by (unfold R; rewrite len_drop; lia).
      rewrite app_assoc. replace (u8 (4 + (184 - l_total l))) with (len (P' ++ stuffing (184 - l_total l))).
      2:{ rewrite len_app, len_stuffing by lia. change (len P') with 4. unfold u8. lia. }
      replace (u8 (l_total l)) with (l_total l) by (unfold u8; lia).
      destruct (pkt_body_ok (P' ++ stuffing (184 - l_total l)) R media pesh (l_total l) l HI) as (l' & E & HI' & EP & EF); [lia|lia| |].
      { rewrite len_app, len_stuffing by lia. change (len P') with 4. lia. }
      cbn beta iota. rewrite E. exists l'. fold D in EP |- *. split; [|split; [exact HI'|split; [|exact EF]]].
      * do 2 f_equal. unfold P'. rewrite lor32 by exact Hcc. rewrite <- !app_assoc. cbn [app]. rewrite (take_all D 184) by lia.
        rewrite (take_all D (l_total l)) by lia. repeat f_equal. rewrite <- (app_nil_r D) at 2. f_equal. apply len_zero. rewrite len_drop; lia.
      * rewrite EP. unfold drop. rewrite !skipn_all2 by (unfold len in HD; lia). reflexivity.
    + cbn [bind]. set (P := [71; b1; lo; Z.lor 16 cc]).
      destruct (pkt_body_ok P (drop pkt 4) media pesh 184 l HI) as (l' & E & HI' & EP & EF); [lia|lia|change (len P) with 4; lia|].
      change (len P) with 4 in E. cbn beta iota. rewrite E. exists l'. fold D in EP |- *. split; [|split; [exact HI'|split; [exact EP|exact EF]]].
      do 2 f_equal. unfold P. rewrite lor16 by exact Hcc. cbn [app]. repeat f_equal.
      rewrite <- (app_nil_r (take D 184)) at 2. f_equal. apply len_zero. rewrite len_drop; lia.
Qed.
(** A first packet with a PCR and 176 to 183 bytes to send does not fit: panic. *)
Lemma build_packet_panic pkt hi lo pesh media cc dts l :
  len pkt = 188 -> l_first l = true -> 176 <= l_total l <= 183 -> build_packet pkt [0x47; hi; lo; 0x10] pesh media cc dts true l = Panic.
Proof.
  intros HP HF HT. unfold build_packet. rewrite pkt_header_ok by lia. cbn [bind]. rewrite HF. cbn [andb].
  rewrite pkt_pcr_ok by (rewrite len_drop; lia). cbn [bind]. unfold pkt_stuff. replace (l_total l <? 184) with true by lia.
  cbn [app]. rewrite or3. cbn [bind]. change (u8 (188 - 12)) with 176.
  rewrite write_stuff_out; [reflexivity|lia| |].
  - rewrite !len_cons, len_app, drop_drop2 by lia. change (4 + 8) with 12. rewrite len_drop by lia. change (len (pcr_bytes dts)) with 6. rewrite HP. unfold u8. lia.
  - unfold u8. lia.
Qed.

(** * The loop *)
Fixpoint packets (fuel : nat) (hi lo : Z) (key first : bool) (cc dts : Z) (D : bytes) : list bytes :=
  match D with
  | [] => []
  | _ => match fuel with
         | O => []
         | S f => let c := (cc + 1) mod 16 in
                  raw_packet first (first && key) hi lo c dts D :: packets f hi lo key false c dts (drop D (room (first && key)))
         end
  end.
Definition cc_of (ty : Z) (m : tsmux) : Z := if ty =? PktVideo then tm_vcc m else tm_acc m.
Definition tm_ok (m : tsmux) : Prop :=
  0 <= tm_vcc m < 16 /\ 0 <= tm_acc m < 16 /\ 0 <= tm_patcc m <= 16 /\ 0 <= tm_pmtcc m <= 16 /\
  len (tm_sdt m) = 188 /\ len (tm_pat m) = 188 /\ len (tm_pmt m) = 188 /\ len (tm_pkt m) = 188.
Lemma new_tsmux_ok : tm_ok new_tsmux. Proof. unfold tm_ok. cbn. repeat split; try reflexivity; lia. Qed.
(** Equal but for the packet array and one counter. *)
Definition same_but (ty : Z) (m m' : tsmux) : Prop :=
  tm_patcc m' = tm_patcc m /\ tm_pmtcc m' = tm_pmtcc m /\ tm_sdt m' = tm_sdt m /\ tm_pat m' = tm_pat m /\ tm_pmt m' = tm_pmt m /\
  (if ty =? PktVideo then tm_acc m' = tm_acc m else tm_vcc m' = tm_vcc m).
Lemma same_but_refl ty m : same_but ty m m. Proof. unfold same_but. destruct (ty =? PktVideo); tauto. Qed.
Lemma same_but_trans ty a b c : same_but ty a b -> same_but ty b c -> same_but ty a c.
Proof. unfold same_but. destruct (ty =? PktVideo); intuition congruence. Qed.
Lemma bump_mod c : 0 <= c < 16 -> bump c = (c + 1) mod 16.
Proof. intros H. unfold bump, u8. cbv zeta. rewrite Z.mod_small by lia. destruct (Z.ltb_spec 15 (c + 1)); lia. Qed.
Lemma next_cc_ok m ty : tm_ok m -> let '(m', c) := next_cc m ty in
  c = (cc_of ty m + 1) mod 16 /\ cc_of ty m' = c /\ tm_ok m' /\ tm_pkt m' = tm_pkt m /\ same_but ty m m'.
Proof.
  intros (H1 & H2 & H3 & H4 & H5 & H6 & H7 & H8). unfold next_cc, cc_of, same_but, tm_ok.
  destruct (ty =? PktVideo) eqn:E; cbn [tm_vcc tm_acc tm_patcc tm_pmtcc tm_sdt tm_pat tm_pmt tm_pkt set_vcc set_acc]; rewrite bump_mod by assumption; repeat split; try assumption; lia.
Qed.
Lemma len_raw_packet first pcr hi lo cc dts D : 0 < len D -> (pcr = true -> ~ 176 <= len D <= 183) -> len (raw_packet first pcr hi lo cc dts D) = 188.
Proof.
  intros HD Hno. unfold raw_packet. rewrite !len_app. change (len [71; _; lo; _]) with 4.
  destruct pcr; unfold room; cbn [orb]; [specialize (Hno eq_refl)|clear Hno].
  - destruct (Z.ltb_spec (len D) 184) as [H|H].
    + rewrite len_stuffing, take_all by lia. change (len (7 :: 80 :: pcr_bytes dts)) with 8. lia.
    + rewrite len_take by lia. change (len (7 :: 80 :: pcr_bytes dts)) with 8. change (len []) with 0. lia.
  - destruct (Z.ltb_spec (len D) 184) as [H|H].
    + rewrite len_stuffing, take_all by lia. change (len []) with 0. lia.
    + rewrite len_take by lia. change (len []) with 0. lia.
Qed.
Lemma pending_first pesh media l b : pending pesh media (mkL (l_total l) (l_hdr l) (l_head l) (l_data l) b) = pending pesh media l.
Proof. reflexivity. Qed.
Lemma linv_first pesh media l b : linv pesh media l -> linv pesh media (mkL (l_total l) (l_hdr l) (l_head l) (l_data l) b).
Proof. intros H. exact H. Qed.

Lemma mux_loop_ok fuel : forall m ty hi lo pesh media dts key l w,
  tm_ok m -> linv pesh media l -> l_total l <= Z.of_nat fuel -> (l_first l && key = true -> ~ 176 <= l_total l <= 183) ->
  let '(m', wr) := mux_loop fuel m ty [0x47; hi; lo; 0x10] pesh media dts key l w in
  wr = run_plan (packets fuel hi lo key (l_first l) (cc_of ty m) dts (pending pesh media l)) (Ok tt) w /\
  tm_ok m' /\ same_but ty m m' /\ (w_calls w <= w_calls (fst wr))%nat /\
  cc_of ty m' = (cc_of ty m + Z.of_nat (w_calls (fst wr) - w_calls w)) mod 16.
Proof.
  induction fuel as [|fuel IH]; intros m ty hi lo pesh media dts key l w HM HI HF Hno.
  - pose proof (pending_len _ _ _ HI) as HL. pose proof (len_nonneg (pending pesh media l)). cbn [mux_loop]. replace (0 <? l_total l) with false by lia.
    assert (E : pending pesh media l = []) by (apply len_zero; lia). rewrite E. cbn [packets run_plan fst].
    split; [reflexivity|]. split; [exact HM|]. split; [apply same_but_refl|]. split; [lia|]. rewrite Nat.sub_diag. change (Z.of_nat 0) with 0. rewrite Z.add_0_r.
    symmetry. apply Z.mod_small. destruct HM as (A1 & A2 & _). unfold cc_of. destruct (ty =? PktVideo); assumption.
  - cbn [mux_loop]. pose proof (pending_len _ _ _ HI) as HL. destruct (Z.ltb_spec 0 (l_total l)) as [HT|HT].
    + pose proof (next_cc_ok m ty HM) as HN. destruct (next_cc m ty) as [m1 c]. destruct HN as (Ec & Ec' & HM1 & EP1 & HS1).
      assert (Hc : 0 <= c < 16) by lia.
      destruct (build_packet_ok (tm_pkt m1) hi lo pesh media c dts key l) as (l' & EB & HI' & EP & EF); try assumption.
      { destruct HM1 as (_ & _ & _ & _ & _ & _ & _ & A); exact A. }
      rewrite EB. cbn [packets]. set (D := pending pesh media l) in *.
      destruct D as [|d0 D'] eqn:ED; [exfalso; unfold len in HL; cbn [length] in HL; lia|]. rewrite <- ED in *. rewrite <- Ec.
      set (pk := raw_packet _ _ _ _ _ _ _) in *.
      assert (Hpk : len pk = 188) by (apply len_raw_packet; [lia|intros Hk; rewrite HL; apply Hno, Hk]).
      assert (HM2 : tm_ok (set_pkt pk m1)) by (destruct HM1 as (A1 & A2 & A3 & A4 & A5 & A6 & A7 & A8); repeat split; cbn; try assumption; lia).
      assert (HS2 : same_but ty m (set_pkt pk m1)) by exact HS1.
      cbn [run_plan]. unfold write. destruct (w_script w (w_calls w)) as [k|] eqn:EW.
      * cbn [fst w_calls]. split; [reflexivity|]. split; [exact HM2|]. split; [exact HS2|]. split; [lia|].
        replace (S (w_calls w) - w_calls w)%nat with 1%nat by lia. change (cc_of ty (set_pkt pk m1)) with (cc_of ty m1). rewrite Ec'. exact Ec.
      * set (w1 := mkW _ _ _). set (l2 := mkL _ _ _ _ false).
        specialize (IH (set_pkt pk m1) ty hi lo pesh media dts key l2 w1 HM2 (linv_first _ _ l' false HI')).
        assert (HLl : l_total l2 <= Z.of_nat fuel).
        { pose proof (pending_len _ _ _ HI') as HL'. rewrite EP in HL'. unfold l2. cbn [l_total]. unfold drop, len in HL', HL. rewrite skipn_length in HL'.
          unfold room in HL'. destruct (l_first l && key); lia. }
        specialize (IH HLl ltac:(discriminate)).
        destruct (mux_loop fuel (set_pkt pk m1) ty [71; hi; lo; 16] pesh media dts key l2 w1) as [m' wr].
        destruct IH as (EWR & HM' & HS' & HC & EC).
        change (pending pesh media l2) with (pending pesh media l') in EWR. change (l_first l2) with false in EWR.
        change (cc_of ty (set_pkt pk m1)) with (cc_of ty m1) in EWR, EC. rewrite EP, Ec' in EWR. rewrite Ec' in EC.
        split; [exact EWR|]. split; [exact HM'|]. split; [eapply same_but_trans; eassumption|]. change (w_calls w1) with (S (w_calls w)) in HC, EC. split; [lia|].
        rewrite EC, Ec. replace (w_calls (fst wr) - w_calls w)%nat with (S (w_calls (fst wr) - S (w_calls w)))%nat by lia.
        rewrite Nat2Z.inj_succ. rewrite Zplus_mod_idemp_l. f_equal. lia.
    + pose proof (len_nonneg (pending pesh media l)). assert (E : pending pesh media l = []) by (apply len_zero; lia). rewrite E. cbn [packets run_plan fst].
      split; [reflexivity|]. split; [exact HM|]. split; [apply same_but_refl|]. split; [lia|]. rewrite Nat.sub_diag. change (Z.of_nat 0) with 0. rewrite Z.add_0_r.
      symmetry. apply Z.mod_small. destruct HM as (A1 & A2 & _). unfold cc_of. destruct (ty =? PktVideo); assumption.
Qed.
(** Too short a key frame: the panic comes before anything is written. *)
Lemma mux_loop_panic fuel m ty hi lo pesh media dts l w :
  tm_ok m -> l_first l = true -> 176 <= l_total l <= 183 -> (0 < fuel)%nat ->
  exists m', mux_loop fuel m ty [0x47; hi; lo; 0x10] pesh media dts true l w = (m', (w, Panic)) /\ tm_ok m' /\ same_but ty m m'.
Proof.
  intros HM HF HT Hf. destruct fuel as [|fuel]; [lia|]. cbn [mux_loop]. replace (0 <? l_total l) with true by lia.
  pose proof (next_cc_ok m ty HM) as HN. destruct (next_cc m ty) as [m1 c]. destruct HN as (_ & _ & HM1 & _ & HS1).
  rewrite build_packet_panic; [exists m1; split; [reflexivity|split; assumption]| |assumption..]. destruct HM1 as (_ & _ & _ & _ & _ & _ & _ & A); exact A.
Qed.

(** * PES headers *)
Definition both_stamps (ty pts dts : Z) : bool := (ty =? PktVideo) && negb (pts =? dts).
Definition pes_head_len (ty pts dts : Z) : Z := if both_stamps ty pts dts then 19 else 14.
Definition pes_size (n media_len : Z) : Z := if 65535 <? n - 6 + media_len then 0 else n - 6 + media_len.
Definition sid_of (ty : Z) : Z := if ty =? PktVideo then 0xe0 else 0xc0.
Lemma generate_pes_ok ty ml pts dts : ty = PktVideo \/ ty = PktAudio ->
  generate_pes_header ty ml pts dts =
  (let n := pes_head_len ty pts dts in
   let size := pes_size n ml in
   ([0; 0; 1; sid_of ty; u8 (Z.shiftr size 8); u8 size; 0x80; if both_stamps ty pts dts then 0xc0 else 0x80; n - 9]
    ++ encode_ts 0x80 pts ++ (if both_stamps ty pts dts then encode_ts 0xc0 dts else [0; 0; 0; 0; 0]),
    n)).
Proof.
  intros HT. unfold generate_pes_header, pes_gen. replace ((ty =? PktVideo) || (ty =? PktAudio)) with true by (destruct HT as [-> | ->]; reflexivity).
  fold (both_stamps ty pts dts). fold (sid_of ty). unfold pes_head_len, pes_size. 
  change (at_ (put1 new_pes_header 3 (sid_of ty)) 7) with 0x80.
  set (e := encode_ts 128 pts). assert (He : exists a b c d f, e = [a; b; c; d; f]) by (unfold e, encode_ts; repeat eexists).
  destruct He as (a & b & c & d & f & ->).
  change (put5 (put1 new_pes_header 3 (sid_of ty)) 9 [a; b; c; d; f]) with [0; 0; 1; sid_of ty; 0xff; 0xff; 0x80; 0x80; 5; a; b; c; d; f; 0; 0; 0; 0; 0].
  destruct (both_stamps ty pts dts).
  - cbv zeta. set (L := [0; 0; 1; sid_of ty; 0xff; 0xff; 0x80; 0x80; 5; a; b; c; d; f; 0; 0; 0; 0; 0]).
    change (put1 (put1 L 7 (Z.lor (at_ L 7) 64)) 8 (u8 (at_ (put1 L 7 (Z.lor (at_ L 7) 64)) 8 + 5)))
      with [0; 0; 1; sid_of ty; 0xff; 0xff; 0x80; 0xc0; 10; a; b; c; d; f; 0; 0; 0; 0; 0].
    change (at_ [0; 0; 1; sid_of ty; 0xff; 0xff; 0x80; 0xc0; 10; a; b; c; d; f; 0; 0; 0; 0; 0] 7) with 0xc0.
    set (e := encode_ts 192 dts). assert (He : exists a b c d f, e = [a; b; c; d; f]) by (unfold e, encode_ts; repeat eexists).
    destruct He as (a' & b' & c' & d' & f' & ->).
    change (put5 _ 14 _) with [0; 0; 1; sid_of ty; 0xff; 0xff; 0x80; 0xc0; 10; a; b; c; d; f; a'; b'; c'; d'; f'].
    change (at_ [0; 0; 1; sid_of ty; 0xff; 0xff; 0x80; 0xc0; 10; a; b; c; d; f; a'; b'; c'; d'; f'] 8) with 10. cbv zeta.
    replace (3 + 10 + ml) with (19 - 6 + ml) by lia. reflexivity.
  - change (at_ _ 8) with 5. cbv zeta. replace (3 + 5 + ml) with (14 - 6 + ml) by lia. reflexivity.
Qed.

(** The number a 33-bit time stamp field holds after encodeTs. *)
Definition stamp_val (ts : Z) : Z := (if 0x1ffffffff <? ts then ts - 0x1ffffffff else ts) mod 2 ^ 33.
Lemma read_encode_ts flag ts : flag = 0x80 \/ flag = 0xc0 -> read_stamp (encode_ts flag ts) = Some (flag / 64, stamp_val ts).
Proof.
  intros HF. unfold encode_ts, stamp_val. set (t := if 8589934591 <? ts then ts - 8589934591 else ts). clearbody t. cbv zeta.
  rewrite !shiftr_div, !shiftl_mul by lia. change 7 with (2 ^ 3 - 1). change 32767 with (2 ^ 15 - 1). rewrite !land_ones by lia.
  change (2 ^ 30) with 1073741824. change (2 ^ 15) with 32768. change (2 ^ 1) with 2. change (2 ^ 8) with 256. change (2 ^ 3) with 8. change (2 ^ 2) with 4. change (2 ^ 33) with 8589934592.
  set (x := t / 1073741824 mod 8). set (y := t / 32768 mod 32768). set (z := t mod 32768).
  assert (Hx : 0 <= x < 8) by (unfold x; lia). assert (Hy : 0 <= y < 32768) by (unfold y; lia). assert (Hz : 0 <= z < 32768) by (unfold z; lia).
  replace (u16 (u16 (t / 1073741824) mod 8 * 2)) with (2 * x) by (unfold u16, x; lia).
  replace (u16 (u16 (t / 32768) mod 32768 * 2)) with (2 * y) by (unfold u16, y; lia).
  replace (u16 (u16 z * 2)) with (2 * z) by (unfold u16; lia).
  assert (L1 : forall v, Z.lor (2 * v) 1 = 2 * v + 1) by (intros v; rewrite (Z.mul_comm 2); apply (lor_disj v 1 1); lia).
  rewrite !L1.
  assert (E0 : Z.lor (Z.lor (Z.land flag 192 / 4) (2 * x)) 1 = flag / 64 * 16 + 2 * x + 1).
  { rewrite <- Z.lor_assoc, L1. destruct HF as [-> | ->]; [change (Z.land 128 192 / 4) with (2 * 2 ^ 4)|change (Z.land 192 192 / 4) with (3 * 2 ^ 4)]; rewrite lor_disj by lia; [change (128 / 64) with 2|change (192 / 64) with 3]; lia. }
  rewrite E0. unfold read_stamp, u8.
  assert (Hf : flag / 64 = 2 \/ flag / 64 = 3) by (destruct HF as [-> | ->]; [left|right]; reflexivity).
  set (g := flag / 64) in *. clearbody g.
  replace (((g * 16 + 2 * x + 1) mod 256) mod 2 =? 1) with true by lia.
  replace (((2 * y + 1) mod 256) mod 2 =? 1) with true by lia. replace (((2 * z + 1) mod 256) mod 2 =? 1) with true by lia. cbn [andb].
  f_equal. f_equal; [lia|].
  replace (((g * 16 + 2 * x + 1) mod 256) / 2 mod 8) with x by lia.
  replace (((2 * y + 1) / 256) mod 256 * 128 + ((2 * y + 1) mod 256) / 2) with y by lia.
  replace (((2 * z + 1) / 256) mod 256 * 128 + ((2 * z + 1) mod 256) / 2) with z by lia.
  unfold x, y, z. clear. change (2 ^ 30) with 1073741824. change (2 ^ 15) with 32768. lia.
Qed.
Lemma len_encode_ts f ts : len (encode_ts f ts) = 5. Proof. reflexivity. Qed.

(** The PES packet made of the header of Mux and the media. *)
Definition pes_bytes (ty : Z) (media : bytes) (pts dts : Z) : bytes :=
  take (fst (generate_pes_header ty (len media) pts dts)) (pes_head_len ty pts dts) ++ media.
Lemma read_pes_ok ty media pts dts : ty = PktVideo \/ ty = PktAudio ->
  read_pes (pes_bytes ty media pts dts) =
  Some (mkPes (sid_of ty) (pes_size (pes_head_len ty pts dts) (len media)) (Some (2, stamp_val pts))
              (if both_stamps ty pts dts then Some (3, stamp_val dts) else None) media).
Proof.
  intros HT. unfold pes_bytes. rewrite generate_pes_ok by exact HT. cbv zeta. cbn [fst].
  assert (HS : forall n, (n = 14 \/ n = 19) -> u8 (Z.shiftr (pes_size n (len media)) 8) * 256 + u8 (pes_size n (len media)) = pes_size n (len media)).
  { intros n Hn. rewrite shiftr_div by lia. change (2 ^ 8) with 256. unfold u8, pes_size. pose proof (len_nonneg media).
    destruct (Z.ltb_spec 65535 (n - 6 + len media)); lia. }
  pose proof (read_encode_ts 0x80 pts (or_introl eq_refl)) as HP. pose proof (read_encode_ts 0xc0 dts (or_intror eq_refl)) as HD.
  unfold pes_head_len in *. destruct (both_stamps ty pts dts).
  - specialize (HS 19 (or_intror eq_refl)). set (size := pes_size 19 (len media)) in *. 
    rewrite take_all by reflexivity. rewrite <- !app_assoc. 
    set (e := encode_ts 128 pts) in *. assert (He : exists a b c d f, e = [a; b; c; d; f]) by (unfold e, encode_ts; repeat eexists). destruct He as (a & b & c & d & f & He). clearbody e; subst e.
    set (e := encode_ts 192 dts) in *. assert (He : exists a b c d f, e = [a; b; c; d; f]) by (unfold e, encode_ts; repeat eexists). destruct He as (a' & b' & c' & d' & f' & He). clearbody e; subst e.
    cbn [app]. unfold read_pes. change (19 - 9) with 10. change (128 / 64 =? 2) with true. rewrite !len_cons. pose proof (len_nonneg media).
    match goal with |- context [10 <=? ?z] => replace (10 <=? z) with true by lia end. cbn [andb].
    change (192 =? 0) with false. change (192 =? 128) with false. change (192 =? 192) with true. change (10 <=? 10) with true. cbn [andb].
    match goal with |- context [take ?s 10] => change (take s 10) with [a; b; c; d; f; a'; b'; c'; d'; f']; change (drop s 10) with media end.
    change (forallb is_ff (drop [a; b; c; d; f; a'; b'; c'; d'; f'] 10)) with true. cbv iota.
    change (take [a; b; c; d; f; a'; b'; c'; d'; f'] 5) with [a; b; c; d; f]. change (take (drop [a; b; c; d; f; a'; b'; c'; d'; f'] 5) 5) with [a'; b'; c'; d'; f'].
    rewrite HP, HD, HS. reflexivity.
  - specialize (HS 14 (or_introl eq_refl)). set (size := pes_size 14 (len media)) in *.
    set (e := encode_ts 128 pts) in *. assert (He : exists a b c d f, e = [a; b; c; d; f]) by (unfold e, encode_ts; repeat eexists). destruct He as (a & b & c & d & f & He). clearbody e; subst e.
    cbn [app]. match goal with |- context [take ?s 14] => change (take s 14) with [0; 0; 1; sid_of ty; u8 (Z.shiftr size 8); u8 size; 128; 128; 14 - 9; a; b; c; d; f] end.
    cbn [app]. unfold read_pes. change (14 - 9) with 5. change (128 / 64 =? 2) with true. rewrite !len_cons. pose proof (len_nonneg media).
    match goal with |- context [5 <=? ?z] => replace (5 <=? z) with true by lia end. cbn [andb].
    change (128 =? 0) with false. change (128 =? 128) with true. change (5 <=? 5) with true. cbn [andb].
    match goal with |- context [take ?s 5] => change (take s 5) with [a; b; c; d; f]; change (drop s 5) with media end.
    change (forallb is_ff (drop [a; b; c; d; f] 5)) with true. cbv iota. change (take [a; b; c; d; f] 5) with [a; b; c; d; f].
    rewrite HP, HS. reflexivity.
Qed.

(** * Reading the packets back *)
Lemma forallb_repeat_ff n : forallb is_ff (repeat 255 n) = true.
Proof. induction n as [|n IH]; [reflexivity|exact IH]. Qed.
Lemma read_af_pcr dts : read_af (0x50 :: pcr_bytes dts) = Some (true, Some (dts mod 2 ^ 33, 0)).
Proof.
  unfold read_af, pcr_bytes. change (80 mod 32) with 16. cbv iota beta. change (64 <=? 80 mod 128) with true.
  rewrite !shiftr_div, shiftl_mul by lia. assert (EL : Z.land dts 1 = dts mod 2) by (apply (land_ones dts 1); lia). rewrite !EL. change (2 ^ 1) with 2. change (2 ^ 7) with 128.
  assert (E : Z.lor (dts mod 2 * 128) 126 = dts mod 2 * 128 + 126) by (apply (lor_disj (dts mod 2) 126 7); lia). rewrite !E.
  replace (u8 (dts mod 2 * 128 + 126)) with (dts mod 2 * 128 + 126) by (unfold u8; lia).
  replace ((dts mod 2 * 128 + 126) / 2 mod 64 =? 63) with true by lia. cbn [andb forallb].
  replace ((dts mod 2 * 128 + 126) mod 2 * 256 + 0) with 0 by lia. replace ((dts mod 2 * 128 + 126) / 128) with (dts mod 2) by lia.
  match goal with |- _ = Some (true, Some (?b, 0)) => match goal with |- Some (true, Some (?a, 0)) = _ => assert (EQ : a = b); [|rewrite EQ; reflexivity] end end.
  pose proof (be_val_be32 (dts / 2)) as HB. unfold be32 in HB. rewrite be_val_32 in HB. rewrite !Z.div_div in HB by lia.
  change (2 * 16777216) with (2 ^ 25) in HB. change (2 * 65536) with (2 ^ 17) in HB. change (2 * 256) with (2 ^ 9) in HB.
  change (2 ^ 33) with 8589934592. change (2 ^ 25) with 33554432 at 2. change (2 ^ 17) with 131072 at 2. change (2 ^ 9) with 512 at 2.
  set (a := u8 (dts / 2 ^ 25)) in *. set (b := u8 (dts / 2 ^ 17)) in *. set (c := u8 (dts / 2 ^ 9)) in *. set (d := u8 (dts / 2)) in *. clearbody a b c d. lia.
Qed.
Definition raw_af (pcr : bool) (dts : Z) (D : bytes) : option bytes :=
  if pcr then Some (0x50 :: pcr_bytes dts) else if len D <? 184 then Some (tl (stuffing (184 - len D))) else None.
Lemma read_raw first pcr lo cc dts D : (lo = 0 \/ lo = 1) -> 0 <= cc < 16 -> 0 < len D -> (pcr = true -> ~ 176 <= len D <= 183) ->
  read_packet (raw_packet first pcr 1 lo cc dts D) =
  Some (mkTs first (256 + lo) cc (raw_af pcr dts D) ((if pcr && (len D <? 184) then stuffing (176 - len D) else []) ++ take D (room pcr))).
Proof.
  intros Hlo Hcc HD Hno. pose proof (len_raw_packet first pcr 1 lo cc dts D HD Hno) as HL.
  assert (HPid : (if first then Z.lor 1 64 else 1) mod 32 * 256 + lo = 256 + lo) by (destruct first; reflexivity).
  assert (HPu : (64 <=? (if first then Z.lor 1 64 else 1)) = first) by (destruct first; reflexivity).
  assert (HB1 : ((if first then Z.lor 1 64 else 1) <? 128) = true) by (destruct first; reflexivity).
  unfold raw_packet, raw_af, room in *. set (b1 := if first then Z.lor 1 64 else 1) in *. clearbody b1.
  destruct pcr; cbn [orb andb] in *.
  - specialize (Hno eq_refl). unfold read_packet. cbn [app] in HL |- *. rewrite HL. change (188 =? 188) with true. change (71 =? 71) with true. rewrite HB1.
    replace (48 + cc <? 64) with true by lia. cbn [andb]. rewrite HPid, HPu. replace ((48 + cc) mod 16) with cc by lia. replace ((48 + cc) / 16) with 3 by lia.
    change (7 <=? 182) with true. cbv iota. change (take (80 :: pcr_bytes dts ++ _) 7) with (80 :: pcr_bytes dts). do 2 f_equal.
  - clear Hno. unfold read_packet. cbn [app] in HL |- *. rewrite HL. change (188 =? 188) with true. change (71 =? 71) with true. rewrite HB1.
    destruct (Z.ltb_spec (len D) 184) as [Hs|Hs].
    + replace (48 + cc <? 64) with true by lia. cbn [andb]. rewrite HPid, HPu. replace ((48 + cc) mod 16) with cc by lia. replace ((48 + cc) / 16) with 3 by lia.
      unfold stuffing. destruct (Z.eqb_spec (184 - len D) 1) as [E1|E1].
      * cbn [app tl]. change (0 <=? 182) with true. cbv iota. reflexivity.
      * cbn [app tl]. replace (184 - len D - 1 <=? 182) with true by lia.
        set (st := 0 :: repeat 255 (Z.to_nat (184 - len D - 2))).
        assert (HLs : 184 - len D - 1 = len st) by (unfold st; rewrite len_cons, len_repeat; lia).
        change (0 :: repeat 255 (Z.to_nat (184 - len D - 2)) ++ take D 184) with (st ++ take D 184). rewrite HLs, take_app, drop_app. reflexivity.
    + replace (16 + cc <? 64) with true by lia. cbn [andb]. rewrite HPid, HPu. replace ((16 + cc) mod 16) with cc by lia. replace ((16 + cc) / 16) with 1 by lia. reflexivity.
Qed.
Lemma mark_pcr q b c : packet_mark q = Some (b, c) -> packet_pcr q = Some c.
Proof. unfold packet_mark, packet_pcr. destruct (ts_af q) as [a|]; [intros ->; reflexivity|]. intros H. injection H as _ <-. reflexivity. Qed.
Lemma raw_pcr first pcr pid cc dts D pl : 0 < len D ->
  packet_mark (mkTs first pid cc (raw_af pcr dts D) pl) = Some (pcr, if pcr then Some (dts mod 2 ^ 33, 0) else None).
Proof.
  intros HD. unfold packet_mark, raw_af. cbn [ts_af]. destruct pcr; [rewrite read_af_pcr; reflexivity|].
  destruct (len D <? 184); [|reflexivity]. unfold stuffing. destruct (184 - len D =? 1); [reflexivity|]. cbn [tl]. unfold read_af. change (0 mod 32) with 0. cbv iota.
  rewrite forallb_repeat_ff. reflexivity.
Qed.

Lemma read_stream_mono n : forall m s l, (n <= m)%nat -> read_stream_fuel n s = Some l -> read_stream_fuel m s = Some l.
Proof.
  induction n as [|n IH]; intros m s l Hm E.
  - destruct s; [|discriminate]. destruct m; exact E.
  - destruct s as [|x s]; [destruct m; exact E|]. destruct m as [|m]; [lia|]. cbn [read_stream_fuel] in E |- *.
    destruct (read_packet (take (x :: s) 188)) as [p|]; [|discriminate].
    destruct (read_stream_fuel n (drop (x :: s) 188)) as [l'|] eqn:E2; [|discriminate]. rewrite (IH m _ l'); [exact E|lia|exact E2].
Qed.
Lemma read_stream_cons a b p l : len a = 188 -> read_packet a = Some p -> read_stream b = Some l -> read_stream (a ++ b) = Some (p :: l).
Proof.
  intros HL HA HB. unfold read_stream in *. rewrite app_length. destruct a as [|x a]; [discriminate|]. cbn [length Nat.add].
  cbn [read_stream_fuel app]. change (x :: a ++ b) with ((x :: a) ++ b). rewrite <- HL, take_app, drop_app, HA.
  rewrite (read_stream_mono (length b) _ b l); [reflexivity|lia|exact HB].
Qed.
Lemma read_stream_app a b la lb : read_stream a = Some la -> read_stream b = Some lb -> read_stream (a ++ b) = Some (la ++ lb).
Proof.
  unfold read_stream at 1. generalize (length a) as n. intros n. revert a la. induction n as [|n IH]; intros a la HA HB.
  - destruct a; [|discriminate]. injection HA as <-. exact HB.
  - destruct a as [|x a]; [injection HA as <-; exact HB|]. cbn [read_stream_fuel] in HA.
    destruct (read_packet (take (x :: a) 188)) as [p|] eqn:EP; [|discriminate].
    destruct (read_stream_fuel n (drop (x :: a) 188)) as [l|] eqn:EL; [|discriminate]. injection HA as <-.
    rewrite <- (take_drop (x :: a) 188) at 1. rewrite <- app_assoc. cbn [app].
    apply read_stream_cons; [|exact EP|apply IH; assumption].
    unfold read_packet in EP. destruct (take (x :: a) 188) as [|b0 [|b1 [|b2 [|b3 r]]]]; try discriminate.
    destruct (Z.eqb_spec (len (b0 :: b1 :: b2 :: b3 :: r)) 188) as [E|E]; [exact E|]. cbn [andb] in EP. discriminate.
Qed.

(** One frame's packets. *)
Definition plain (p : tspkt) : Prop := ts_pusi p = false /\ packet_mark p = Some (false, None).
Lemma packets_read fuel : forall lo key first cc dts D, (lo = 0 \/ lo = 1) -> 0 <= cc < 16 -> D <> [] -> len D <= Z.of_nat fuel ->
  (first && key = true -> ~ 176 <= len D <= 183) ->
  exists p l, read_stream (concat (packets fuel 1 lo key first cc dts D)) = Some (p :: l) /\
    length (packets fuel 1 lo key first cc dts D) = S (length l) /\
    Forall (fun q => ts_pid q = 256 + lo) (p :: l) /\ continuous ((cc + 1) mod 16) (p :: l) /\
    ts_pusi p = first /\ packet_mark p = Some (first && key, if first && key then Some (dts mod 2 ^ 33, 0) else None) /\ Forall plain l /\
    concat (map ts_payload (p :: l)) = (if first && key && (len D <? 184) then stuffing (176 - len D) else []) ++ D.
Proof.
  induction fuel as [|fuel IH]; intros lo key first cc dts D Hlo Hcc HD HF Hno.
  - exfalso. apply HD, len_zero. pose proof (len_nonneg D). lia.
  - assert (HL : 0 < len D) by (destruct (Z.eq_dec (len D) 0) as [E|E]; [exfalso; apply HD, len_zero, E|pose proof (len_nonneg D); lia]).
    destruct D as [|d0 D'] eqn:ED; [congruence|]. cbn [packets]. rewrite <- ED in *. set (c := (cc + 1) mod 16). assert (Hc : 0 <= c < 16) by (unfold c; lia).
    pose proof (read_raw first (first && key) lo c dts D Hlo Hc HL Hno) as HR. pose proof (len_raw_packet first (first && key) 1 lo c dts D HL Hno) as HLR.
    set (pl := (if first && key && (len D <? 184) then stuffing (176 - len D) else []) ++ take D (room (first && key))) in *.
    set (rest := drop D (room (first && key))) in *.
    destruct rest as [|r0 rest'] eqn:ER.
    + assert (EP : packets fuel 1 lo key false c dts [] = []) by (destruct fuel; reflexivity). rewrite EP. cbn [concat]. 
      eexists _, []. split. { apply read_stream_cons; [exact HLR|exact HR|reflexivity]. }
      split; [reflexivity|]. split; [repeat constructor|]. split; [cbn; tauto|]. split; [reflexivity|]. split; [apply raw_pcr, HL|]. split; [constructor|].
      cbn [map concat ts_payload]. unfold pl. rewrite app_nil_r. f_equal.
      rewrite <- (take_drop D (room (first && key))) at 2. fold rest. rewrite ER, app_nil_r. reflexivity.
    + assert (Hlong : room (first && key) < len D).
      { destruct (Z_lt_dec (room (first && key)) (len D)) as [|H]; [assumption|]. exfalso. assert (E : rest = []).
        { apply len_zero. unfold rest, drop, len in *. rewrite skipn_length. unfold room in *. destruct (first && key); lia. } congruence. }
      rewrite <- ER. destruct (IH lo key false c dts rest Hlo Hc) as (p & l & E1 & E2 & E3 & E4 & E5 & E6 & E7 & E8).
      { rewrite ER; discriminate. }
      { unfold rest. rewrite len_drop by (unfold room in *; destruct (first && key); lia). unfold room in *. destruct (first && key); lia. }
      { discriminate. }
      eexists _, (p :: l). split. { cbn [concat]. apply read_stream_cons; [exact HLR|exact HR|exact E1]. }
      split; [cbn [length]; rewrite E2; reflexivity|]. split; [apply Forall_cons; [reflexivity|exact E3]|].
      split. { cbn [continuous]. split; [reflexivity|]. exact E4. }
      split; [reflexivity|]. split; [apply raw_pcr, HL|]. split; [apply Forall_cons; [split; [exact E5|exact E6]|exact E7]|].
      cbn [andb app] in E8. change (map ts_payload (mkTs first (256 + lo) c (raw_af (first && key) dts D) pl :: p :: l)) with (pl :: map ts_payload (p :: l)).
      change (concat (pl :: map ts_payload (p :: l))) with (pl ++ concat (map ts_payload (p :: l))). rewrite E8. unfold pl. rewrite <- app_assoc. f_equal. apply take_drop.
Qed.

(** * Mux *)
Definition mux_bytes (p : packet) (dts pts : Z) : bytes := pes_bytes (p_type p) (media_of p) pts dts.
Definition is_key (p : packet) : bool := (p_type p =? PktVideo) && match video_of p with Some vh => v_key vh | None => false end.
Definition can_mux (p : packet) : Prop := p_type p = PktAudio \/ (p_type p = PktVideo /\ video_of p <> None).
Definition lo_of (p : packet) : Z := if p_type p =? PktVideo then 0 else 1.
Lemma len_pes_bytes ty media pts dts : ty = PktVideo \/ ty = PktAudio -> len (pes_bytes ty media pts dts) = len media + pes_head_len ty pts dts.
Proof.
  intros HT. unfold pes_bytes. rewrite generate_pes_ok by exact HT. cbv zeta. cbn [fst]. rewrite len_app, len_take; [lia|].
  rewrite !len_app, len_encode_ts. unfold pes_head_len. destruct (both_stamps ty pts dts); rewrite ?len_encode_ts; unfold len; cbn [length]; lia.
Qed.
Definition mux_packets (m : tsmux) (p : packet) (dts pts : Z) : list bytes :=
  packets (Z.to_nat (len (mux_bytes p dts pts))) 1 (lo_of p) (is_key p) true (cc_of (p_type p) m) dts (mux_bytes p dts pts).
Lemma ts_mux_ok m p dts pts w : tm_ok m -> can_mux p ->
  (is_key p = true -> ~ 176 <= len (mux_bytes p dts pts) <= 183) ->
  let '(m', wr) := ts_mux m p dts pts w in
  wr = run_plan (mux_packets m p dts pts) (Ok tt) w /\
  tm_ok m' /\ same_but (p_type p) m m' /\ (w_calls w <= w_calls (fst wr))%nat /\
  cc_of (p_type p) m' = (cc_of (p_type p) m + Z.of_nat (w_calls (fst wr) - w_calls w)) mod 16.
Proof.
  intros HM HC Hno. assert (HT : p_type p = PktVideo \/ p_type p = PktAudio) by (destruct HC as [H|[H _]]; auto).
  pose proof (len_pes_bytes (p_type p) (media_of p) pts dts HT) as HL.
  assert (HX : forall key, is_key p = key -> 
    let '(m', wr) := mux_loop (Z.to_nat (len (media_of p) + pes_head_len (p_type p) pts dts)) m (p_type p) [0x47; 1; lo_of p; 0x10]
       (fst (generate_pes_header (p_type p) (len (media_of p)) pts dts)) (media_of p) dts key
       (mkL (len (media_of p) + pes_head_len (p_type p) pts dts) (pes_head_len (p_type p) pts dts) 0 0 true) w in
    wr = run_plan (mux_packets m p dts pts) (Ok tt) w /\
    tm_ok m' /\ same_but (p_type p) m m' /\ (w_calls w <= w_calls (fst wr))%nat /\
    cc_of (p_type p) m' = (cc_of (p_type p) m + Z.of_nat (w_calls (fst wr) - w_calls w)) mod 16).
  { intros key Hkey. set (l := mkL _ _ 0 0 true). set (pesh := fst (generate_pes_header _ _ _ _)).
    assert (Hh : pes_head_len (p_type p) pts dts = 14 \/ pes_head_len (p_type p) pts dts = 19) by (unfold pes_head_len; destruct both_stamps; auto).
    pose proof (len_nonneg (media_of p)) as Hm0.
    assert (HPL : len pesh = 19).
    { unfold pesh. rewrite generate_pes_ok by exact HT. cbv zeta. cbn [fst]. rewrite !len_app. destruct (both_stamps _ _ _); reflexivity. }
    assert (HI : linv pesh (media_of p) l) by (unfold linv, l; cbn; lia).
    assert (EP : pending pesh (media_of p) l = mux_bytes p dts pts).
    { unfold pending, l. cbn [l_head l_hdr l_data]. rewrite drop_0. unfold mux_bytes, pes_bytes. fold pesh. f_equal. unfold slice, take. f_equal. lia. }
    pose proof (mux_loop_ok (Z.to_nat (len (media_of p) + pes_head_len (p_type p) pts dts)) m (p_type p) 1 (lo_of p) pesh (media_of p) dts key l w HM HI) as HH.
    assert (H1 : l_total l <= Z.of_nat (Z.to_nat (len (media_of p) + pes_head_len (p_type p) pts dts))) by (unfold l; cbn [l_total]; lia).
    specialize (HH H1). assert (H2 : l_first l && key = true -> ~ 176 <= l_total l <= 183).
    { intros Hk. unfold mux_bytes in Hno. rewrite HL in Hno. apply Hno. rewrite Hkey. exact Hk. }
    specialize (HH H2). unfold mux_packets. unfold mux_bytes at 1. rewrite HL, Hkey, <- EP. exact HH. }
  assert (EG : snd (generate_pes_header (p_type p) (len (media_of p)) pts dts) = pes_head_len (p_type p) pts dts) by (rewrite generate_pes_ok by exact HT; reflexivity).
  unfold ts_mux. destruct (generate_pes_header (p_type p) (len (media_of p)) pts dts) as [pesh hl] eqn:EGen. cbn [fst snd] in *. subst hl.
  destruct HC as [Ht|[Ht Hv]]; rewrite Ht in *; cbn [Z.eqb] in *.
  - change (PktAudio =? PktVideo) with false. change (PktAudio =? PktAudio) with true. cbv iota.
    change (u8 (Z.shiftr audio_pid 8)) with 1. change (u8 audio_pid) with 1. specialize (HX false).
    assert (El : lo_of p = 1) by (unfold lo_of; rewrite Ht; reflexivity). rewrite El in HX. apply HX. unfold is_key. rewrite Ht. reflexivity.
  - change (PktVideo =? PktVideo) with true. cbv iota. destruct (video_of p) as [vh|] eqn:Ev; [|congruence].
    change (u8 (Z.shiftr video_pid 8)) with 1. change (u8 video_pid) with 0. specialize (HX (v_key vh)).
    assert (El : lo_of p = 0) by (unfold lo_of; rewrite Ht; reflexivity). rewrite El in HX. apply HX. unfold is_key. rewrite Ht, Ev. reflexivity.
Qed.
Lemma ts_mux_panic m p dts pts w : tm_ok m -> can_mux p -> is_key p = true -> 176 <= len (mux_bytes p dts pts) <= 183 ->
  exists m', ts_mux m p dts pts w = (m', (w, Panic)) /\ tm_ok m' /\ same_but (p_type p) m m'.
Proof.
  intros HM HC HK HT. destruct HC as [Ht|[Ht Hv]]; [unfold is_key in HK; rewrite Ht in HK; discriminate|].
  unfold mux_bytes in HT. rewrite len_pes_bytes in HT by (left; exact Ht).
  unfold ts_mux. rewrite generate_pes_ok by (left; exact Ht). cbv zeta. rewrite Ht in *. change (PktVideo =? PktVideo) with true. cbv iota.
  unfold is_key in HK. rewrite Ht in HK. destruct (video_of p) as [vh|] eqn:Ev; [|congruence]. change (v_key vh = true) in HK. rewrite HK.
  apply mux_loop_panic; [exact HM|reflexivity|exact HT|lia].
Qed.
(** Whatever Mux does, the muxer's fields stay in range and only the packet array and one counter change. *)
Lemma can_mux_dec p : can_mux p \/ ~ can_mux p.
Proof.
  unfold can_mux. destruct (Z.eq_dec (p_type p) PktAudio) as [H|H]; [tauto|]. destruct (Z.eq_dec (p_type p) PktVideo) as [H2|H2]; [|tauto].
  destruct (video_of p); [left; right; split; [assumption|discriminate]|right; intuition congruence].
Qed.
Lemma ts_mux_refused m p dts pts w : ~ can_mux p ->
  ts_mux m p dts pts w = (m, (w, if p_type p =? PktVideo then Panic else Err EOther)).
Proof.
  intros HC. unfold ts_mux, can_mux in *. destruct (Z.eqb_spec (p_type p) PktVideo) as [H|H].
  - destruct (video_of p); [exfalso; apply HC; right; split; [assumption|discriminate]|reflexivity].
  - destruct (Z.eqb_spec (p_type p) PktAudio) as [H2|H2]; [tauto|reflexivity].
Qed.
Lemma ts_mux_inv m p dts pts w : tm_ok m -> tm_ok (fst (ts_mux m p dts pts w)) /\ same_but (p_type p) m (fst (ts_mux m p dts pts w)).
Proof.
  intros HM. destruct (can_mux_dec p) as [HC|HC].
  - destruct (is_key p) eqn:EK.
    + destruct (Z_le_dec 176 (len (mux_bytes p dts pts))) as [H1|H1]; [destruct (Z_le_dec (len (mux_bytes p dts pts)) 183) as [H2|H2]|].
      * destruct (ts_mux_panic m p dts pts w HM HC EK (conj H1 H2)) as (m' & -> & A & B). split; assumption.
      * pose proof (ts_mux_ok m p dts pts w HM HC ltac:(lia)) as H. destruct (ts_mux m p dts pts w) as [m' wr]. destruct H as (_ & A & B & _). split; assumption.
      * pose proof (ts_mux_ok m p dts pts w HM HC ltac:(lia)) as H. destruct (ts_mux m p dts pts w) as [m' wr]. destruct H as (_ & A & B & _). split; assumption.
    + assert (Hno : is_key p = true -> ~ 176 <= len (mux_bytes p dts pts) <= 183) by (rewrite EK; discriminate).
      pose proof (ts_mux_ok m p dts pts w HM HC Hno) as H. destruct (ts_mux m p dts pts w) as [m' wr]. destruct H as (_ & A & B & _). split; assumption.
  - rewrite ts_mux_refused by exact HC. split; [exact HM|apply same_but_refl].
Qed.
