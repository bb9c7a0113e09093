(** Histories of one PES header object. *)
From Coq Require Import ZifyBool.
From Verif Require Import Base.Go Base.GoFacts Base.IO Model.Packet Model.Ts Spec.Ts Proofs.TsPackets Spec.Pes.
Local Open Scope Z_scope.
Local Ltac Zify.zify_post_hook ::= Z.div_mod_to_equations.

Definition pes_apply (h : bytes) (c : pes_call) : bytes * Z := pes_gen h (pc_type c) (pc_len c) (pc_pts c) (pc_dts c).
Definition pes_after (cs : list pes_call) : bytes := fold_left (fun h c => fst (pes_apply h c)) cs new_pes_header.

Definition dts_bytes (d : option Z) : bytes := match d with Some t => encode_ts 0xc0 t | None => [0; 0; 0; 0; 0] end.
Definition flag_of (n : Z) : Z := if n =? 0 then 0x80 else 0xc0.
Definition klen (n : Z) : Z := u8 (5 * (1 + n)).
Definition shape (n : Z) (d : option Z) (h : bytes) : Prop := exists sid l1 l2 a b c e f,
  h = [0; 0; 1; sid; l1; l2; 0x80; flag_of n; klen n; a; b; c; e; f] ++ dts_bytes d.

Lemma encode5 f t : exists a b c d e, encode_ts f t = [a; b; c; d; e].
Proof. unfold encode_ts. repeat eexists. Qed.
Lemma dts5 d : exists a b c e f, dts_bytes d = [a; b; c; e; f].
Proof. destruct d; [apply encode5|]. repeat eexists. Qed.
Lemma flag_lor n : Z.lor (flag_of n) 0x40 = 0xc0.
Proof. unfold flag_of. destruct (n =? 0); reflexivity. Qed.

Definition sid_bytes (c : pes_call) : Z := if pc_type c =? 0 then 0xe0 else 0xc0.
Definition hsize (n ml : Z) : Z := let s := 3 + klen n + ml in if 0xffff <? s then 0 else s.
Lemma apply_shape n d h c : 0 <= n -> shape n d h -> pc_media c = true ->
  let n' := if pc_both c then n + 1 else n in
  let d' := if pc_both c then Some (pc_dts c) else d in
  pes_apply h c =
  ([0; 0; 1; sid_bytes c; u8 (Z.shiftr (hsize n' (pc_len c)) 8); u8 (hsize n' (pc_len c)); 0x80; flag_of n'; klen n']
     ++ encode_ts (flag_of n) (pc_pts c) ++ dts_bytes d', 9 + klen n').
Proof.
  intros Hn (sid & l1 & l2 & a & b & x & e & f & ->) HM. cbv zeta. unfold pes_apply, pes_gen.
  change PktVideo with 0. change PktAudio with 1. unfold pc_media in HM. rewrite HM. fold (pc_both c). fold (sid_bytes c).
  destruct (dts5 d) as (v & w & y & z & u & ED). rewrite ED. cbv zeta. cbn [app].
  set (F := flag_of n). set (K := klen n).
  change (put1 [0; 0; 1; sid; l1; l2; 128; F; K; a; b; x; e; f; v; w; y; z; u] 3 (sid_bytes c)) with
    [0; 0; 1; sid_bytes c; l1; l2; 128; F; K; a; b; x; e; f; v; w; y; z; u].
  change (at_ [0; 0; 1; sid_bytes c; l1; l2; 128; F; K; a; b; x; e; f; v; w; y; z; u] 7) with F.
  destruct (encode5 F (pc_pts c)) as (p1 & p2 & p3 & p4 & p5 & ->).
  change (put5 [0; 0; 1; sid_bytes c; l1; l2; 128; F; K; a; b; x; e; f; v; w; y; z; u] 9 [p1; p2; p3; p4; p5]) with
    [0; 0; 1; sid_bytes c; l1; l2; 128; F; K; p1; p2; p3; p4; p5; v; w; y; z; u].
  destruct (pc_both c).
  - set (L := [0; 0; 1; sid_bytes c; l1; l2; 128; F; K; p1; p2; p3; p4; p5; v; w; y; z; u]).
    change (at_ L 7) with F. replace (Z.lor F 64) with 192 by (symmetry; apply flag_lor). unfold L.
    change (put1 [0; 0; 1; sid_bytes c; l1; l2; 128; F; K; p1; p2; p3; p4; p5; v; w; y; z; u] 7 192) with
      [0; 0; 1; sid_bytes c; l1; l2; 128; 192; K; p1; p2; p3; p4; p5; v; w; y; z; u].
    change (at_ [0; 0; 1; sid_bytes c; l1; l2; 128; 192; K; p1; p2; p3; p4; p5; v; w; y; z; u] 8) with K.
    replace (u8 (K + 5)) with (klen (n + 1)) by (unfold K, klen, u8; lia). set (K' := klen (n + 1)).
    change (put1 [0; 0; 1; sid_bytes c; l1; l2; 128; 192; K; p1; p2; p3; p4; p5; v; w; y; z; u] 8 K') with
      [0; 0; 1; sid_bytes c; l1; l2; 128; 192; K'; p1; p2; p3; p4; p5; v; w; y; z; u].
    change (at_ [0; 0; 1; sid_bytes c; l1; l2; 128; 192; K'; p1; p2; p3; p4; p5; v; w; y; z; u] 7) with 192.
    cbn [dts_bytes]. destruct (encode5 192 (pc_dts c)) as (q1 & q2 & q3 & q4 & q5 & ->).
    change (put5 [0; 0; 1; sid_bytes c; l1; l2; 128; 192; K'; p1; p2; p3; p4; p5; v; w; y; z; u] 14 [q1; q2; q3; q4; q5]) with
      [0; 0; 1; sid_bytes c; l1; l2; 128; 192; K'; p1; p2; p3; p4; p5; q1; q2; q3; q4; q5].
    change (at_ [0; 0; 1; sid_bytes c; l1; l2; 128; 192; K'; p1; p2; p3; p4; p5; q1; q2; q3; q4; q5] 8) with K'.
    fold (hsize (n + 1) (pc_len c)) in *. replace (flag_of (n + 1)) with 192 by (unfold flag_of; replace (n + 1 =? 0) with false by lia; reflexivity).
    unfold hsize. fold K'. cbv zeta. set (s := if 65535 <? 3 + K' + pc_len c then 0 else 3 + K' + pc_len c). reflexivity.
  - change (at_ [0; 0; 1; sid_bytes c; l1; l2; 128; F; K; p1; p2; p3; p4; p5; v; w; y; z; u] 8) with K.
    unfold hsize. fold K. cbv zeta. set (s := if 65535 <? 3 + K + pc_len c then 0 else 3 + K + pc_len c). rewrite ED. reflexivity.
Qed.

Lemma filter_snoc {A} (p : A -> bool) l x : filter p (l ++ [x]) = filter p l ++ if p x then [x] else [].
Proof. induction l as [|y l IH]; cbn; [destruct (p x); reflexivity|]. rewrite IH. destruct (p y); reflexivity. Qed.
Lemma both_snoc cs c : both_calls (cs ++ [c]) = both_calls cs + if pc_both c then 1 else 0.
Proof. unfold both_calls. rewrite filter_snoc, len_app. destruct (pc_both c); unfold len; cbn [length]; lia. Qed.
Lemma last_snoc cs c : last_dts (cs ++ [c]) = if pc_both c then Some (pc_dts c) else last_dts cs.
Proof. unfold last_dts. rewrite filter_snoc. destruct (pc_both c); [rewrite rev_unit; reflexivity|rewrite app_nil_r; reflexivity]. Qed.
Lemma both_nonneg cs : 0 <= both_calls cs. Proof. apply len_nonneg. Qed.
Lemma both_media c : pc_both c = true -> pc_media c = true.
Proof. unfold pc_both, pc_media. destruct (pc_type c =? 0); [reflexivity|discriminate]. Qed.
Lemma after_snoc cs c : pes_after (cs ++ [c]) = fst (pes_apply (pes_after cs) c).
Proof. unfold pes_after. rewrite fold_left_app. reflexivity. Qed.
Lemma apply_other h c : pc_media c = false -> pes_apply h c = (h, 0).
Proof. unfold pc_media, pes_apply, pes_gen. change PktVideo with 0. change PktAudio with 1. intros ->. reflexivity. Qed.

Lemma after_shape cs : shape (both_calls cs) (last_dts cs) (pes_after cs).
Proof.
  induction cs as [|c cs IH] using rev_ind; [exists 0xc0, 0xff, 0xff, 0, 0, 0, 0, 0; reflexivity|].
  rewrite after_snoc, both_snoc, last_snoc. destruct (pc_media c) eqn:HM.
  - rewrite (apply_shape _ _ _ c (both_nonneg cs) IH HM). cbn [fst].
    destruct (encode5 (flag_of (both_calls cs)) (pc_pts c)) as (p1 & p2 & p3 & p4 & p5 & ->).
    destruct (pc_both c); [|rewrite Z.add_0_r]; do 8 eexists; reflexivity.
  - rewrite apply_other by exact HM. cbn [fst]. destruct (pc_both c) eqn:HB; [rewrite (both_media c HB) in HM; discriminate|]. rewrite Z.add_0_r. exact IH.
Qed.
Lemma apply_after cs c : pc_media c = true ->
  let n := both_calls (cs ++ [c]) in
  pes_apply (pes_after cs) c =
  ([0; 0; 1; sid_bytes c; u8 (Z.shiftr (hsize n (pc_len c)) 8); u8 (hsize n (pc_len c)); 0x80; flag_of n; klen n]
     ++ encode_ts (flag_of (both_calls cs)) (pc_pts c) ++ dts_bytes (last_dts (cs ++ [c])), 9 + klen n).
Proof.
  intros HM. cbv zeta. rewrite (apply_shape _ _ _ c (both_nonneg cs) (after_shape cs) HM). rewrite both_snoc, last_snoc.
  destruct (pc_both c); [reflexivity|]. rewrite Z.add_0_r. reflexivity.
Qed.
Lemma stored_stamp t : stored_time t = stamp_val t. Proof. reflexivity. Qed.
Lemma read_flagged n t : read_stamp (encode_ts (flag_of n) t) = Some (if n =? 0 then 2 else 3, stored_time t).
Proof.
  rewrite read_encode_ts by (unfold flag_of; destruct (n =? 0); [left|right]; reflexivity). unfold flag_of. destruct (n =? 0); reflexivity.
Qed.
Lemma none_both cs : both_calls cs = 0 -> last_dts cs = None.
Proof. unfold both_calls, last_dts. destruct (filter pc_both cs); [reflexivity|]. rewrite len_cons. pose proof (len_nonneg l). lia. Qed.
Lemma some_both cs : both_calls cs <> 0 -> exists d, last_dts cs = Some d.
Proof.
  unfold both_calls, last_dts. destruct (filter pc_both cs) as [|c l] eqn:E; [intros H; elim H; reflexivity|]. intros _.
  destruct (rev (c :: l)) as [|x r] eqn:ER; [|eexists; reflexivity]. apply (f_equal (@length _)) in ER. rewrite rev_length in ER. discriminate.
Qed.

(** * WriteStuff and WritePcr *)
Lemma write_stuff_gen R r n : 1 <= n <= 256 -> r = n mod 256 -> n <= len R -> write_stuff R 0 r = Ok (stuffing n ++ drop R n).
Proof.
  intros H -> HR. unfold write_stuff. replace (u8 (n mod 256 - 1)) with (n - 1) by (unfold u8; lia). cbv zeta.
  destruct R as [|x R]; [unfold len in HR; cbn [length] in HR; lia|]. pose proof (upd_app [] x R (n - 1)) as U. cbn [app] in U. change (len []) with 0 in U. rewrite U.
  cbn [bind]. unfold stuffing. rewrite len_cons in HR.
  destruct (Z.eqb_spec n 1) as [->|Hn]; [reflexivity|]. replace (0 <? n - 1) with true by lia.
  destruct R as [|y R]; [unfold len in HR; cbn [length] in HR; lia|]. rewrite len_cons in HR.
  pose proof (upd_app [n - 1] y R 0) as U2. cbn [app] in U2. change (len [n - 1]) with (0 + 1) in U2. rewrite U2. cbn [bind].
  pose proof (fill_app (Z.to_nat (n - 1 - 1)) [n - 1; 0] R 255 ltac:(lia)) as U3. cbn [app] in U3. change (len [n - 1; 0]) with (0 + 2) in U3. rewrite U3.
  replace (Z.to_nat (n - 1 - 1)) with (Z.to_nat (n - 2)) by lia. cbn [app]. do 4 f_equal. rewrite Z2Nat.id by lia. unfold drop.
  replace (Z.to_nat n) with (S (S (Z.to_nat (n - 2)))) by lia. reflexivity.
Qed.
Lemma write_stuff_short R r n : 1 <= n <= 256 -> r = n mod 256 -> len R < n -> write_stuff R 0 r = Panic.
Proof.
  intros H -> HR. destruct (Z.eq_dec n 1) as [->|Hn].
  - assert (R = []) as -> by (destruct R; [reflexivity|rewrite len_cons in HR; pose proof (len_nonneg R); lia]). reflexivity.
  - assert (E : u8 (n mod 256 - 1) = n - 1) by (unfold u8; lia). apply write_stuff_out; rewrite ?E; lia.
Qed.
Lemma stuffing_field n : 1 <= n -> is_stuffing_field n (stuffing n).
Proof.
  intros H. split; [apply len_stuffing; exact H|]. unfold stuffing. destruct (Z.eqb_spec n 1) as [->|Hn].
  - split; [reflexivity|]. split; [lia|]. intros [|[|i]] b Hi E; try lia. destruct i; discriminate.
  - split; [reflexivity|]. split; [reflexivity|]. intros [|[|i]] b Hi E; try lia. cbn [nth_error] in E. apply nth_error_In, repeat_spec in E. exact E.
Qed.
Lemma nth_error_ext {A} : forall (s t : list A), (forall i, nth_error s i = nth_error t i) -> s = t.
Proof.
  induction s as [|x s IH]; intros [|y t] H; [reflexivity|specialize (H O); discriminate|specialize (H O); discriminate|].
  f_equal; [specialize (H O); cbn in H; congruence|]. apply IH. intros i. exact (H (S i)).
Qed.
Lemma stuffing_unique n s t : is_stuffing_field n s -> is_stuffing_field n t -> s = t.
Proof.
  intros (L1 & A1 & B1 & C1) (L2 & A2 & B2 & C2). apply nth_error_ext. intros i.
  assert (X : forall (a b : bytes), len a = len b -> (i < length a)%nat \/ (nth_error a i = None /\ nth_error b i = None)).
  { intros a b E. destruct (le_lt_dec (length a) i); [right; split; apply nth_error_None; unfold len in E; lia|left; lia]. }
  destruct (X s t (eq_trans L1 (eq_sym L2))) as [Hi|[-> ->]]; [|reflexivity].
  destruct (nth_error s i) as [b|] eqn:E1; [|apply nth_error_None in E1; lia].
  destruct (nth_error t i) as [b'|] eqn:E2; [|apply nth_error_None in E2; unfold len in *; lia].
  destruct i as [|[|i]]; [congruence| |].
  - assert (2 <= n) by (unfold len in L1; lia). rewrite B1 in E1 by assumption. rewrite B2 in E2 by assumption. congruence.
  - rewrite (C1 (S (S i)) _ (le_n_S _ _ (le_n_S _ _ (Nat.le_0_l i))) E1), (C2 (S (S i)) _ (le_n_S _ _ (le_n_S _ _ (Nat.le_0_l i))) E2). reflexivity.
Qed.
Lemma write_pcr_ok R t : 6 <= len R -> write_pcr R 0 t = Ok (pcr_bytes t ++ drop R 6).
Proof. intros H. pose proof (write_seq_app (pcr_bytes t) [] R H) as E. exact E. Qed.
Lemma write_pcr_short R t : len R < 6 -> write_pcr R 0 t = Panic.
Proof. intros H. apply write_seq_out; [lia|discriminate|exact H]. Qed.
