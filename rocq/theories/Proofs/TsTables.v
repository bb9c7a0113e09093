(** Lemmas about the program tables of container/ts/muxer.go, sync.go and mixer.go. *)
From Verif Require Import Base.Go Base.GoFacts Base.IO Proofs.IOFacts Model.Packet Model.Parsers Model.Crc32 Model.Ts
  Spec.Crc32 Spec.Ts Proofs.Crc32 Proofs.TsPackets.
Local Ltac Zify.zify_post_hook ::= Z.div_mod_to_equations.

Lemma write_crc_be32 s i c : write_crc s i c = write_seq s i (be32 c).
Proof. unfold write_crc, be32. rewrite !shiftr_div by lia. reflexivity. Qed.
Definition table (hdr sec : bytes) : bytes := hdr ++ sec ++ be32 (generate_crc32 sec) ++ repeat 255 (Z.to_nat (179 - len sec)).
Lemma len_table hdr sec : len hdr = 5 -> len sec <= 179 -> len (table hdr sec) = 188.
Proof. intros H1 H2. unfold table. rewrite !len_app, len_be32, len_repeat. pose proof (len_nonneg sec). lia. Qed.
Lemma finish_table P R c : len P + 4 <= 188 -> len P + len R = 188 ->
  (let* s := write_crc (P ++ R) (len P) c in pad_ff s (len P + 4)) = Ok (P ++ be32 c ++ repeat 255 (Z.to_nat (184 - len P))).
Proof.
  intros H1 H2. rewrite write_crc_be32, write_seq_app by (rewrite len_be32; lia). cbn [bind]. unfold pad_ff. rewrite len_be32.
  rewrite app_assoc. replace (len P + 4) with (len (P ++ be32 c)) by (rewrite len_app, len_be32; reflexivity).
  rewrite fill_app by (rewrite len_app, len_be32, len_drop by lia; lia). rewrite <- app_assoc. do 3 f_equal.
  rewrite len_app, len_be32. replace (188 - (len P + 4)) with (184 - len P) by lia. rewrite <- (app_nil_r (repeat _ _)) at 2. f_equal.
  apply len_zero. rewrite Z2Nat.id by lia. rewrite !len_drop; rewrite ?len_drop; lia.
Qed.
Lemma copy0 s b : len b <= len s -> copy_at s 0 b = Ok (b ++ drop s (len b)).
Proof. intros H. pose proof (copy_app [] s b H) as E. cbn [app] in E. exact E. Qed.
Lemma build_table s hdr h info : len s = 188 -> len hdr = 5 -> len h + len info <= 179 ->
  (let* s := copy_at s 0 hdr in
   let* s := copy_at s 5 h in
   let* s := copy_at s (5 + len h) info in
   let i := 5 + len h + len info in
   let* sec := go_slice s 5 i in
   let* s := write_crc s i (generate_crc32 sec) in
   pad_ff s (i + 4)) = Ok (table hdr (h ++ info)).
Proof.
  intros Hs Hh HL. pose proof (len_nonneg h). pose proof (len_nonneg info). rewrite copy0 by lia. cbn [bind]. rewrite Hh.
  replace (copy_at (hdr ++ drop s 5) 5 h) with (copy_at (hdr ++ drop s 5) (len hdr) h) by (rewrite Hh; reflexivity).
  assert (H5 : len (drop s 5) = 183) by (rewrite len_drop; lia). rewrite copy_app by lia. cbn [bind].
  rewrite app_assoc. replace (5 + len h) with (len (hdr ++ h)) by (rewrite len_app; lia). set (R := drop (drop s 5) (len h)).
  assert (HR : len R = 183 - len h) by (unfold R; rewrite len_drop; lia). rewrite copy_app by lia. cbn [bind]. rewrite app_assoc.
  replace (len (hdr ++ h) + len info) with (len ((hdr ++ h) ++ info)) by (rewrite len_app; lia). set (P := (hdr ++ h) ++ info).
  assert (HP : len P = 5 + len h + len info) by (unfold P; rewrite !len_app; lia).
  assert (HR2 : len (drop R (len info)) = 183 - len h - len info) by (rewrite len_drop; lia).
  rewrite go_slice_ok by (rewrite ?len_app; lia). cbn [bind].
  assert (ES : slice (P ++ drop R (len info)) 5 (len P) = h ++ info).
  { unfold slice, P. rewrite <- !app_assoc. rewrite skipn_app. replace (Z.to_nat 5) with (length hdr) by (unfold len in Hh; lia).
    rewrite skipn_all, Nat.sub_diag. cbn [app skipn]. rewrite (app_assoc h).
    replace (Z.to_nat (len (hdr ++ h ++ info) - 5)) with (length (h ++ info)) by (rewrite len_app, Hh; unfold len; lia). apply firstn_app_len. }
  rewrite ES, finish_table by lia. unfold table, P. rewrite len_app, <- !app_assoc. do 5 f_equal. f_equal. f_equal. rewrite !len_app. lia.
Qed.
(** Too long for one packet. *)
Lemma build_table_panic s hdr h info : len s = 188 -> len hdr = 5 -> len h <= 100 -> 179 < len h + len info ->
  (let* s := copy_at s 0 hdr in
   let* s := copy_at s 5 h in
   let* s := copy_at s (5 + len h) info in
   let i := 5 + len h + len info in
   let* sec := go_slice s 5 i in
   let* s := write_crc s i (generate_crc32 sec) in
   pad_ff s (i + 4)) = Panic.
Proof.
  intros Hs Hh Hsm HL. pose proof (len_nonneg h). pose proof (len_nonneg info). rewrite copy0 by lia. cbn [bind]. rewrite Hh.
  replace (copy_at (hdr ++ drop s 5) 5 h) with (copy_at (hdr ++ drop s 5) (len hdr) h) by (rewrite Hh; reflexivity).
  assert (H5 : len (drop s 5) = 183) by (rewrite len_drop; lia). rewrite copy_app by lia. cbn [bind].
  set (s2 := hdr ++ h ++ drop (drop s 5) (len h)). assert (L2 : len s2 = 188) by (unfold s2; rewrite !len_app, len_drop; lia).
  assert (L3 : exists s3, copy_at s2 (5 + len h) info = Ok s3 /\ len s3 = 188).
  { unfold copy_at. rewrite L2. replace ((0 <=? 5 + len h) && (5 + len h <=? 188)) with true by lia. cbv zeta. eexists. split; [reflexivity|].
    set (b := take info (188 - (5 + len h))). assert (Hb : len b <= 188 - (5 + len h)) by (unfold b, take, len in *; rewrite firstn_length; lia).
    pose proof (len_nonneg b). rewrite !len_app, len_take, len_drop by lia. lia. }
  destruct L3 as (s3 & -> & L3). cbn [bind]. unfold go_slice. rewrite L3. destruct (Z_le_dec (5 + len h + len info) 188) as [Hi|Hi].
  - replace ((0 <=? 5) && (5 <=? 5 + len h + len info) && (5 + len h + len info <=? 188)) with true by lia. cbn [bind].
    rewrite write_crc_be32, write_seq_out; [reflexivity|lia|discriminate|rewrite len_be32; lia].
  - replace ((0 <=? 5) && (5 <=? 5 + len h + len info) && (5 + len h + len info <=? 188)) with false by lia. reflexivity.
Qed.

Lemma read_table b1 b2 c t a b body : b1 < 128 -> 64 <= b1 -> 0 <= c < 16 -> is_bytes (t :: a :: b :: body) -> 128 <= a ->
  a mod 16 * 256 + b = len body + 4 -> len body <= 176 ->
  exists pl, read_packet (table [0x47; b1; b2; 16 + c; 0] (t :: a :: b :: body)) = Some (mkTs true (b1 mod 32 * 256 + b2) c None pl) /\
             read_section pl = Some (t, len body + 4, body).
Proof.
  intros H1 H2 Hc HB Ha HN HL. set (sec := t :: a :: b :: body) in *.
  assert (HLs : len sec = 3 + len body) by (unfold sec; rewrite !len_cons; lia).
  pose proof (len_table [0x47; b1; b2; 16 + c; 0] sec eq_refl ltac:(lia)) as HLT.
  eexists. split.
  - unfold table in *. cbn [app] in *. unfold read_packet. rewrite HLT. change (188 =? 188) with true. change (71 =? 71) with true.
    replace (b1 <? 128) with true by lia. replace (16 + c <? 64) with true by lia. cbn [andb]. replace ((16 + c) / 16) with 1 by lia.
    replace ((16 + c) mod 16) with c by lia. replace (64 <=? b1) with true by lia. reflexivity.
  - unfold sec at 1. cbn [app]. unfold read_section. rewrite HN.
    set (crc := be32 (generate_crc32 sec)). set (pad := repeat 255 _). pose proof (len_nonneg body) as Hb0.
    assert (Hcl : len crc = 4) by reflexivity.
    rewrite app_assoc. assert (HBC : len (body ++ crc) = len body + 4) by (rewrite len_app; lia).
    rewrite <- HBC. rewrite take_app, drop_app. rewrite (len_app (body ++ crc) pad). pose proof (len_nonneg pad).
    replace (128 <=? a) with true by lia. replace (4 <=? len (body ++ crc)) with true by lia. replace (len (body ++ crc) <=? len (body ++ crc) + len pad) with true by lia.
    replace (len (body ++ crc) <=? 1021) with true by lia. cbn [andb].
    change (t :: a :: b :: body ++ crc) with (sec ++ crc). assert (HBs : is_bytes (sec ++ crc)) by (apply is_bytes_app; split; [exact HB|apply is_bytes_be32]).
    assert (EC : crc_mpeg2 (sec ++ crc) = 0).
    { unfold crc_mpeg2, crc_of_bits. change (2 ^ 32 - 1) with 4294967295. rewrite <- crc_fold by (exact HBs || (unfold reg; cbn; lia)).
      rewrite fold_left_app. fold (generate_crc32 sec). apply residue, reg_crc, HB. }
    rewrite EC. change (0 =? 0) with true. unfold pad at 1. rewrite forallb_repeat_ff. cbn [andb].
    rewrite <- app_assoc. replace (len (body ++ crc) - 4) with (len body) by lia. rewrite take_app. reflexivity.
Qed.

(** ** The three tables *)
Lemma cc_byte c : 0 <= c < 16 -> Z.lor 16 (Z.land c 15) = 16 + c.
Proof. intros H. change 15 with (2 ^ 4 - 1). rewrite land_ones by lia. rewrite Z.mod_small by (change (2 ^ 4) with 16; lia). apply lor16, H. Qed.
Definition tcc (c : Z) : Z := if 15 <? c then 0 else c.
Lemma tcc_range c : 0 <= c <= 16 -> 0 <= tcc c < 16. Proof. unfold tcc. destruct (Z.ltb_spec 15 c); lia. Qed.
Lemma tcc_next c n : 0 <= c <= 16 -> tcc c = n mod 16 -> tcc (u8 (tcc c + 1)) = (n + 1) mod 16 /\ 0 <= u8 (tcc c + 1) <= 16.
Proof.
  intros H1. assert (HR : 0 <= tcc c < 16) by (apply tcc_range, H1). set (t := tcc c) in *. clearbody t. intros H2.
  unfold tcc, u8. rewrite (Z.mod_small (t + 1)) by lia. rewrite <- (Zplus_mod_idemp_l n 1 16), <- H2. destruct (Z.ltb_spec 15 (t + 1)); lia.
Qed.

Lemma ts_pat_ok m : tm_ok m ->
  ts_pat m = (set_pat (u8 (tcc (tm_patcc m) + 1)) (table [0x47; 0x40; 0; 16 + tcc (tm_patcc m); 0] pat_header) m,
              Ok (table [0x47; 0x40; 0; 16 + tcc (tm_patcc m); 0] pat_header)).
Proof.
  intros (H1 & H2 & H3 & H4 & H5 & H6 & H7 & H8). unfold ts_pat. fold (tcc (tm_patcc m)). pose proof (tcc_range _ H3) as HC. rewrite cc_byte by exact HC.
  set (hdr := [71; 64; 0; 16 + tcc (tm_patcc m); 0]).
  rewrite copy0 by (change (len hdr) with 5; lia). cbn [bind]. change (len hdr) with 5.
  assert (H5' : len (drop (tm_pat m) 5) = 183) by (rewrite len_drop; lia).
  change (copy_at (hdr ++ drop (tm_pat m) 5) 5 pat_header) with (copy_at (hdr ++ drop (tm_pat m) 5) (len hdr) pat_header).
  rewrite copy_app by (change (len pat_header) with 12; lia). cbn [bind].
  change (len pat_header) with 12. rewrite app_assoc. set (P := hdr ++ pat_header).
  assert (HR : len (drop (drop (tm_pat m) 5) 12) = 171) by (rewrite len_drop; lia).
  change (5 + 12) with (len P). rewrite finish_table by (change (len P) with 17; lia).
  unfold P, table. rewrite <- !app_assoc. reflexivity.
Qed.
Lemma ts_pmt_ok m mt pcr info : tm_ok m -> pmt_programs mt 0 [] = (pcr, info) -> len info <= 167 ->
  let s := table [0x47; 0x50; 1; 16 + tcc (tm_pmtcc m); 0] ([2; 0xb0; u8 (len info + 13); 0; 1; 0xc1; 0; 0; 0xe1; pcr; 0xf0; 0] ++ info) in
  ts_pmt m mt = (set_pmt (u8 (tcc (tm_pmtcc m) + 1)) s m, Ok s).
Proof.
  intros (H1 & H2 & H3 & H4 & H5 & H6 & H7 & H8) HP HL. cbv zeta. unfold ts_pmt. change (at_ pmt_header 9) with 0. rewrite HP. fold (tcc (tm_pmtcc m)).
  pose proof (tcc_range _ H4) as HC. rewrite cc_byte by exact HC.
  change (put1 (put1 pmt_header 9 pcr) 2 (u8 (len info + 9 + 4))) with [2; 0xb0; u8 (len info + 9 + 4); 0; 1; 0xc1; 0; 0; 0xe1; pcr; 0xf0; 0].
  replace (len info + 9 + 4) with (len info + 13) by lia. rewrite build_table; [reflexivity|exact H7|reflexivity|]. unfold len at 1. cbn [length]. lia.
Qed.
Lemma ts_pmt_panic m mt pcr info : tm_ok m -> pmt_programs mt 0 [] = (pcr, info) -> 167 < len info ->
  exists m', ts_pmt m mt = (m', Panic).
Proof.
  intros (H1 & H2 & H3 & H4 & H5 & H6 & H7 & H8) HP HL. unfold ts_pmt. change (at_ pmt_header 9) with 0. rewrite HP.
  change (put1 (put1 pmt_header 9 pcr) 2 (u8 (len info + 9 + 4))) with [2; 0xb0; u8 (len info + 9 + 4); 0; 1; 0xc1; 0; 0; 0xe1; pcr; 0xf0; 0].
  rewrite build_table_panic; [eexists; reflexivity|exact H7|reflexivity|unfold len; cbn [length]; lia|]. unfold len at 1. cbn [length]. lia.
Qed.
Lemma ts_sdt_ok m desc : tm_ok m -> len desc <= 163 ->
  let s := table [0x47; 0x40; 0x11; 0x10; 0] ([0x42; 0xf0; 17 + len desc; 0; 1; 0xc1; 0; 0; 0xff; 1; 0xff; 0; 1; 0xfc; 0x80; len desc] ++ desc) in
  ts_sdt m desc = (set_sdt s m, Ok s).
Proof.
  intros (H1 & H2 & H3 & H4 & H5 & H6 & H7 & H8) HL. pose proof (len_nonneg desc) as H0. cbv zeta. unfold ts_sdt.
  rewrite !shiftr_div by lia. replace (17 + len desc - 17) with (len desc) by lia.
  replace ((17 + len desc) / 2 ^ 8) with 0 by (change (2 ^ 8) with 256; lia). replace (len desc / 2 ^ 8) with 0 by (change (2 ^ 8) with 256; lia).
  replace (u8 (17 + len desc)) with (17 + len desc) by (unfold u8; lia). replace (u8 (len desc)) with (len desc) by (unfold u8; lia).
  match goal with |- context [copy_at _ 5 ?h] => change h with [0x42; 0xf0; 17 + len desc; 0; 1; 0xc1; 0; 0; 0xff; 1; 0xff; 0; 1; 0xfc; 0x80; len desc] end.
  cbv zeta. match goal with |- context [5 + len ?h] => change h with [0x42; 0xf0; 17 + len desc; 0; 1; 0xc1; 0; 0; 0xff; 1; 0xff; 0; 1; 0xfc; 0x80; len desc] end.
  rewrite build_table; [reflexivity|exact H5|reflexivity|]. unfold len at 1. cbn [length]. lia.
Qed.
Lemma ts_sdt_panic m desc : tm_ok m -> 163 < len desc -> exists m', ts_sdt m desc = (m', Panic).
Proof.
  intros (H1 & H2 & H3 & H4 & H5 & H6 & H7 & H8) HL. unfold ts_sdt.
  match goal with |- context [copy_at _ 5 ?h] => set (hd := h) end. cbv zeta.
  assert (HH : len hd = 16) by reflexivity. 
  rewrite build_table_panic; [eexists; reflexivity|exact H5|reflexivity|lia|lia].
Qed.
