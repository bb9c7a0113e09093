(** C157, C158: the PES header object of package container/ts/table, used directly. *)
From Coq Require Import ZifyBool.
From Verif Require Import Base.Go Base.GoFacts Base.IO Model.Packet Model.Ts Spec.Ts Proofs.TsPackets Spec.Pes Proofs.Pes.
Local Open Scope Z_scope.
Local Ltac Zify.zify_post_hook ::= Z.div_mod_to_equations.

(** GeneratePesHeader on an object whose PesHeader field is [h]: the field afterwards and the returned length. *)
Definition call (h : bytes) (c : pes_call) : bytes * Z := pes_gen h (pc_type c) (pc_len c) (pc_pts c) (pc_dts c).
(** The PesHeader field of a new object after a history of calls. *)
Definition after (cs : list pes_call) : bytes := fold_left (fun h c => fst (call h c)) cs new_pes_header.
Lemma after_eq cs : after cs = pes_after cs. Proof. reflexivity. Qed.
Lemma call_eq h c : call h c = pes_apply h c. Proof. reflexivity. Qed.

(** Calls for other types of packet change nothing and return 0. *)
Theorem C157_others : forall cs c, pc_media c = false -> call (after cs) c = (after cs, 0).
Proof. intros cs c H. rewrite call_eq. apply apply_other, H. Qed.
Print Assumptions C157_others.

(** The header after any history, exactly: the returned length counts the calls that wrote both times. *)
Theorem C157_header : forall cs c, pc_media c = true -> 0 <= pc_len c ->
  let '(h, n) := call (after cs) c in
  let k := (5 * (1 + both_calls (cs ++ [c]))) mod 256 in
  let size := if 3 + k + pc_len c <=? 65535 then 3 + k + pc_len c else 0 in
  n = 9 + k /\
  exists P D,
    h = [0; 0; 1; if pc_type c =? 0 then 0xe0 else 0xc0; size / 256; size mod 256; 0x80; if both_calls (cs ++ [c]) =? 0 then 0x80 else 0xc0; k] ++ P ++ D /\
    read_stamp P = Some (if both_calls cs =? 0 then 2 else 3, stored_time (pc_pts c)) /\
    match last_dts (cs ++ [c]) with
    | Some d => read_stamp D = Some (3, stored_time d)
    | None => D = [0; 0; 0; 0; 0]
    end.
Proof.
  intros cs c HM HL. rewrite call_eq, after_eq, (apply_after cs c HM). cbv zeta. change (5 * (1 + both_calls (cs ++ [c]))) with (5 * (1 + both_calls (cs ++ [c]))).
  unfold hsize, klen. fold (u8 (5 * (1 + both_calls (cs ++ [c])))). set (k := u8 (5 * (1 + both_calls (cs ++ [c])))).
  assert (Hk : 0 <= k < 256) by (unfold k, u8; lia). cbv zeta. split; [reflexivity|].
  replace (if 65535 <? 3 + k + pc_len c then 0 else 3 + k + pc_len c) with (if 3 + k + pc_len c <=? 65535 then 3 + k + pc_len c else 0)
    by (destruct (3 + k + pc_len c <=? 65535) eqn:?, (65535 <? 3 + k + pc_len c) eqn:?; lia).
  set (size := if 3 + k + pc_len c <=? 65535 then 3 + k + pc_len c else 0).
  assert (Hs : 0 <= size <= 65535) by (unfold size; destruct (3 + k + pc_len c <=? 65535) eqn:?; lia). clearbody size k.
  eexists _, _. split; [|split; [apply read_flagged|]].
  - replace (u8 (Z.shiftr size 8)) with (size / 256) by (rewrite shiftr_div by lia; unfold u8; change (2 ^ 8) with 256; lia). reflexivity.
  - destruct (last_dts (cs ++ [c])) as [d|]; [|reflexivity]. cbn [dts_bytes]. rewrite read_encode_ts by (right; reflexivity). reflexivity.
Qed.
Print Assumptions C157_header.

(** The full claim: whatever was done with the object, each call makes the header that a new object would make. It
    holds as long as no call has written both times, so for the use that Mux makes of it (one call per object). *)
Theorem C157_reuse_partial : forall cs c, both_calls cs = 0 -> pc_media c = true -> call (after cs) c = call new_pes_header c.
Proof.
  intros cs c HB HM. rewrite !call_eq, after_eq, (apply_after cs c HM).
  pose proof (apply_after [] c HM) as E0. cbv zeta in E0. change (pes_apply (pes_after []) c) with (call new_pes_header c) in E0. rewrite E0. rewrite !both_snoc, !last_snoc, HB, none_both by exact HB. reflexivity.
Qed.
Print Assumptions C157_reuse_partial.

(** A packet made with a new object: what a receiver reads. *)
Theorem C157_fresh : forall c media, pc_media c = true -> pc_len c = len media ->
  let '(h, n) := call new_pes_header c in
  exists size, read_pes (take h n ++ media) =
    Some (mkPes (if pc_type c =? 0 then 0xe0 else 0xc0) size (Some (2, stored_time (pc_pts c)))
                (if pc_both c then Some (3, stored_time (pc_dts c)) else None) media).
Proof.
  intros c media HM HL. destruct (call new_pes_header c) as [h n] eqn:E.
  assert (HT : pc_type c = PktVideo \/ pc_type c = PktAudio) by (unfold pc_media in HM; change PktVideo with 0; change PktAudio with 1; lia).
  eexists. pose proof (read_pes_ok (pc_type c) media (pc_pts c) (pc_dts c) HT) as R.
  assert (E' : generate_pes_header (pc_type c) (len media) (pc_pts c) (pc_dts c) = (h, n)) by (rewrite <- HL; exact E).
  assert (EN : n = pes_head_len (pc_type c) (pc_pts c) (pc_dts c)) by (rewrite generate_pes_ok in E' by exact HT; injection E' as _ <-; reflexivity).
  unfold pes_bytes in R. rewrite E' in R. cbn [fst] in R. rewrite <- EN in R. exact R.
Qed.
Print Assumptions C157_fresh.

(** Refuted in general. One call that wrote both times is enough: the next header with one time still announces
    two, and a receiver reads the old decoding time. *)
Theorem C157_reuse_stale_refuted : forall cs c d media, both_calls cs = 1 -> last_dts cs = Some d -> pc_media c = true -> pc_both c = false ->
  pc_len c = len media ->
  let '(h, n) := call (after cs) c in
  exists size, read_pes (take h n ++ media) =
    Some (mkPes (if pc_type c =? 0 then 0xe0 else 0xc0) size (Some (3, stored_time (pc_pts c))) (Some (3, stored_time d)) media).
Proof.
  intros cs c d media HB HD HM HC HL. rewrite call_eq, after_eq, (apply_after cs c HM). cbv zeta. rewrite both_snoc, last_snoc, HC, HB, HD.
  change (1 + 0) with 1. change (klen 1) with 10. change (flag_of 1) with 192. cbn [dts_bytes].
  pose proof (read_encode_ts 192 (pc_pts c) (or_intror eq_refl)) as RP. pose proof (read_encode_ts 192 d (or_intror eq_refl)) as RD.
  destruct (encode5 192 (pc_pts c)) as (p1 & p2 & p3 & p4 & p5 & EP). destruct (encode5 192 d) as (q1 & q2 & q3 & q4 & q5 & EQ).
  rewrite EP in RP |- *. rewrite EQ in RD |- *. set (s1 := u8 _). set (s2 := u8 _). clearbody s1 s2. eexists. unfold sid_bytes.
  cbn [app]. 
  match goal with |- read_pes (take ?l (9 + 10) ++ _) = _ => change (take l (9 + 10)) with l end.
  cbn [app]. unfold read_pes. pose proof (len_nonneg media). rewrite !len_cons.
  change (128 / 64 =? 2) with true. replace (10 <=? _) with true by lia. cbn [andb].
  match goal with |- context [take ?l 10] => change (take l 10) with [p1; p2; p3; p4; p5; q1; q2; q3; q4; q5]; change (drop l 10) with media end.
  change (192 =? 0) with false. change (192 =? 128) with false. change (192 =? 192) with true. change (5 <=? 10) with true. change (10 <=? 10) with true.
  change (drop [p1; p2; p3; p4; p5; q1; q2; q3; q4; q5] 10) with (@nil Z). cbn [andb forallb].
  change (take [p1; p2; p3; p4; p5; q1; q2; q3; q4; q5] 5) with [p1; p2; p3; p4; p5].
  change (take (drop [p1; p2; p3; p4; p5; q1; q2; q3; q4; q5] 5) 5) with [q1; q2; q3; q4; q5]. rewrite RP, RD. reflexivity.
Qed.
Print Assumptions C157_reuse_stale_refuted.
(** With two to fifty of them, counting the call itself, the returned length exceeds the 19 bytes there are: taking that many bytes of
    PesHeader is a run-time panic. *)
Theorem C157_reuse_too_long_refuted : forall cs c, pc_media c = true -> 2 <= both_calls (cs ++ [c]) <= 50 ->
  let '(h, n) := call (after cs) c in len h = 19 /\ 19 < n /\ go_slice h 0 n = Panic.
Proof.
  intros cs c HM HB. rewrite call_eq, after_eq, (apply_after cs c HM). cbv zeta. set (h := _ ++ _).
  assert (HL : len h = 19) by (unfold h; rewrite !len_app, len_encode_ts; destruct (dts5 (last_dts (cs ++ [c]))) as (? & ? & ? & ? & ? & ->); reflexivity).
  split; [exact HL|]. unfold klen, u8. split; [lia|]. unfold go_slice. rewrite HL. replace (_ && _) with false by lia. reflexivity.
Qed.
Print Assumptions C157_reuse_too_long_refuted.
Example C157_example : let a := PesCall 0 1000 3600 0 in let b := PesCall 1 100 7200 7200 in let x := PesCall 5 100 0 0 in
  pc_media a = true /\ pc_both a = true /\ pc_media b = true /\ pc_both b = false /\ pc_media x = false /\ both_calls [b; x] = 0 /\
  both_calls [b; a] = 1 /\ last_dts [b; a] = Some 0 /\ both_calls ([a] ++ [a]) = 2 /\
  map (fun cs => snd (call (after cs) a)) [[]; [a]; [a; b; a]] = [19; 24; 29].
Proof. vm_compute. repeat split. Qed.

(** WriteStuff(src, remain): the first [remain] bytes become a stuffing adaptation field, the rest stays; 0 stands
    for 256; a run-time panic if there are fewer bytes than that. *)
Theorem C158_stuff : forall src remain, 0 <= remain < 256 ->
  let n := if remain =? 0 then 256 else remain in
  match write_stuff src 0 remain with
  | Ok out => n <= len src /\ is_stuffing_field n (take out n) /\ drop out n = drop src n
  | Panic => len src < n
  | _ => False
  end.
Proof.
  intros src remain HR n. assert (Hn : 1 <= n <= 256 /\ remain = n mod 256) by (unfold n; destruct (Z.eqb_spec remain 0); lia). destruct Hn as [Hn E].
  destruct (Z_le_dec n (len src)) as [H|H].
  - rewrite (write_stuff_gen src remain n Hn E H). split; [exact H|]. pose proof (len_stuffing n ltac:(lia)) as L.
    pose proof (take_app (stuffing n) (drop src n)) as T. pose proof (drop_app (stuffing n) (drop src n)) as D. rewrite L in T, D. rewrite T, D.
    split; [apply stuffing_field; lia|reflexivity].
  - rewrite (write_stuff_short src remain n Hn E) by lia. lia.
Qed.
Print Assumptions C158_stuff.
(** The field is determined by its length. *)
Theorem C158_stuff_unique : forall n s t, is_stuffing_field n s -> is_stuffing_field n t -> s = t.
Proof. exact stuffing_unique. Qed.
Print Assumptions C158_stuff_unique.
(** WritePcr(buf, pcr): the first six bytes become a PCR of base [pcr] (33 bits) and extension 0, read back by a
    receiver after the flags of an adaptation field; the rest stays; a run-time panic with fewer than six bytes. *)
Theorem C158_pcr : forall buf pcr,
  match write_pcr buf 0 pcr with
  | Ok out => 6 <= len buf /\ read_af (0x50 :: take out 6) = Some (true, Some (pcr mod 2 ^ 33, 0)) /\ drop out 6 = drop buf 6
  | Panic => len buf < 6
  | _ => False
  end.
Proof.
  intros buf pcr. destruct (Z_le_dec 6 (len buf)) as [H|H].
  - rewrite write_pcr_ok by exact H. split; [exact H|]. split; [apply read_af_pcr|reflexivity].
  - rewrite write_pcr_short by lia. lia.
Qed.
Print Assumptions C158_pcr.
Example C158_example : write_stuff [1; 2; 3; 4; 5] 0 4 = Ok [3; 0; 255; 255; 5] /\ write_stuff [1; 2] 0 1 = Ok [0; 2] /\ write_stuff [1; 2] 0 3 = Panic /\
  write_stuff (repeat 7 256%nat) 0 0 = Ok (255 :: 0 :: repeat 255 254%nat) /\ write_pcr [0; 0; 0; 0; 0; 9; 8] 0 (-1) = Ok [255; 255; 255; 255; 254; 0; 8].
Proof. vm_compute. repeat split. Qed.
