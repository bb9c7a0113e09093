(** Lemmas about histories of container/ts: table counters, streams of frames, synchronisation, Mixer. *)
From Verif Require Import Base.Go Base.GoFacts Base.IO Proofs.IOFacts Model.Packet Model.Parsers Model.Crc32 Model.Ts
  Spec.Crc32 Spec.Ts Proofs.Crc32 Proofs.TsPackets Proofs.TsTables.
Local Ltac Zify.zify_post_hook ::= Z.div_mod_to_equations.

(** ** Table counters over histories *)
Definition is_pat (o : tbl_op) : bool := match o with TPat => true | _ => false end.
Definition is_pmt (o : tbl_op) : bool := match o with TPmt _ => true | _ => false end.
Definition tbl_inv (m : tsmux) (a b : Z) : Prop := tm_ok m /\ tcc (tm_patcc m) = a mod 16 /\ tcc (tm_pmtcc m) = b mod 16.
Lemma tbl_step_inv m w o a b : tbl_inv m a b ->
  tbl_inv (fst (fst (tbl_step (m, w) o))) (a + Z.b2z (is_pat o)) (b + Z.b2z (is_pmt o)).
Proof.
  intros (HM & HA & HB). pose proof HM as (H1 & H2 & H3 & H4 & H5 & H6 & H7 & H8). destruct o as [desc| |mt|p dts pts]; cbn [tbl_step is_pat is_pmt Z.b2z]; rewrite ?Z.add_0_r.
  - destruct (Z_le_dec (len desc) 163) as [HL|HL].
    + pose proof (ts_sdt_ok m desc HM HL) as E. cbv zeta in E. rewrite E. cbn [fst]. unfold tbl_inv, tm_ok. cbn [set_sdt tm_vcc tm_acc tm_patcc tm_pmtcc tm_sdt tm_pat tm_pmt tm_pkt].
      repeat split; try lia; try assumption. apply len_table; [reflexivity|]. rewrite len_app. unfold len at 1. cbn [length]. lia.
    + assert (E : exists m', ts_sdt m desc = (m', Panic)) by (apply ts_sdt_panic; [exact HM|lia]). destruct E as (m' & E).
      assert (m' = m) as ->; [|rewrite E; split; [exact HM|split; assumption]].
      unfold ts_sdt in E. match type of E with match ?r with _ => _ end = _ => destruct r end; inversion E; reflexivity.
  - rewrite ts_pat_ok by exact HM. cbn [fst]. unfold tbl_inv, tm_ok. cbn [set_pat tm_vcc tm_acc tm_patcc tm_pmtcc tm_sdt tm_pat tm_pmt tm_pkt].
    destruct (tcc_next (tm_patcc m) a H3 HA) as (E1 & E2). repeat split; try lia; try assumption.
  - destruct (pmt_programs mt 0 []) as [pcr info] eqn:EP. destruct (tcc_next (tm_pmtcc m) b H4 HB) as (E1 & E2).
    destruct (Z_le_dec (len info) 167) as [HL|HL].
    + pose proof (ts_pmt_ok m mt pcr info HM EP HL) as E. cbv zeta in E. rewrite E. cbn [fst]. unfold tbl_inv, tm_ok.
      cbn [set_pmt tm_vcc tm_acc tm_patcc tm_pmtcc tm_sdt tm_pat tm_pmt tm_pkt]. repeat split; try lia; try assumption.
      apply len_table; [reflexivity|]. rewrite len_app. unfold len at 1. cbn [length]. lia.
    + assert (E : exists m', ts_pmt m mt = (m', Panic)) by (eapply ts_pmt_panic; [exact HM|exact EP|lia]). destruct E as (m' & E).
      assert (E' : m' = set_pmt (u8 (tcc (tm_pmtcc m) + 1)) (tm_pmt m) m).
      { unfold ts_pmt in E. change (at_ pmt_header 9) with 0 in E. rewrite EP in E. fold (tcc (tm_pmtcc m)) in E.
        match type of E with match ?r with _ => _ end = _ => destruct r end; inversion E; reflexivity. }
      rewrite E, E'. cbn [fst]. unfold tbl_inv, tm_ok. cbn [set_pmt tm_vcc tm_acc tm_patcc tm_pmtcc tm_sdt tm_pat tm_pmt tm_pkt]. repeat split; try lia; try assumption.
  - pose proof (ts_mux_inv m p dts pts w HM) as (HM' & HS). destruct (ts_mux m p dts pts w) as [m' [w' r]]. cbn [fst] in *.
    destruct HS as (S1 & S2 & _). split; [exact HM'|]. rewrite S1, S2. split; assumption.
Qed.
Lemma tbl_run_inv os : forall m w a b, tbl_inv m a b ->
  tbl_inv (fst (fst (tbl_run (m, w) os))) (a + len (filter is_pat os)) (b + len (filter is_pmt os)).
Proof.
  induction os as [|o os IH]; intros m w a b H; cbn [tbl_run]; [cbn; rewrite !Z.add_0_r; exact H|].
  pose proof (tbl_step_inv m w o a b H) as H1. destruct (tbl_step (m, w) o) as [[m1 w1] r]. cbn [fst] in H1.
  specialize (IH m1 w1 _ _ H1). destruct (tbl_run (m1, w1) os) as [[m2 w2] rs]. cbn [fst] in *. cbn [filter].
  destruct (is_pat o), (is_pmt o); cbn [Z.b2z] in IH; rewrite ?len_cons; rewrite <- ?Z.add_assoc in IH; rewrite ?Z.add_0_l in IH; exact IH.
Qed.
Lemma new_tbl_inv : tbl_inv new_tsmux 0 0. Proof. split; [exact new_tsmux_ok|split; reflexivity]. Qed.

(** ** PMT contents *)
Definition prog (t : Z) : bytes := if t =? PktVideo then avc_program else if t =? PktAudio then aac_program else [].
Definition pcr_low (mt : list Z) (d : Z) : Z := fold_left (fun a t => if t =? PktVideo then 0 else if t =? PktAudio then 1 else a) mt d.
Lemma pmt_programs_eq mt : forall d info, pmt_programs mt d info = (pcr_low mt d, info ++ flat_map prog mt).
Proof.
  induction mt as [|t mt IH]; intros d info; [cbn; rewrite app_nil_r; reflexivity|]. cbn [pmt_programs flat_map pcr_low fold_left]. unfold prog at 1.
  destruct (t =? PktVideo); [rewrite IH, <- app_assoc; reflexivity|]. destruct (t =? PktAudio); [rewrite IH, <- app_assoc; reflexivity|]. rewrite IH. reflexivity.
Qed.
Lemma entry_cases t : (t = 0 /\ media_entries [t] = [(0x1b, 0x100)] /\ prog t = avc_program) \/
  (t = 1 /\ media_entries [t] = [(0x0f, 0x101)] /\ prog t = aac_program) \/ (media_entries [t] = [] /\ prog t = []).
Proof.
  destruct (Z.eq_dec t 0) as [->|H0]; [left; repeat split|]. destruct (Z.eq_dec t 1) as [->|H1]; [right; left; repeat split|]. right; right. split.
  - unfold media_entries. cbn [flat_map]. rewrite app_nil_r. destruct t as [|[p|p|]|p]; try reflexivity; congruence.
  - unfold prog, PktVideo, PktAudio. replace (t =? 0) with false by lia. replace (t =? 1) with false by lia. reflexivity.
Qed.
Lemma media_entries_cons t mt : media_entries (t :: mt) = media_entries [t] ++ media_entries mt.
Proof. unfold media_entries. cbn [flat_map]. rewrite app_nil_r. reflexivity. Qed.
Lemma read_programs mt : read_entries (flat_map prog mt) = Some (media_entries mt) /\ len (flat_map prog mt) = 5 * len (media_entries mt) /\ is_bytes (flat_map prog mt).
Proof.
  induction mt as [|t mt (IH1 & IH2 & IH3)]; [repeat split; constructor|]. rewrite media_entries_cons. cbn [flat_map].
  destruct (entry_cases t) as [(-> & -> & ->)|[(-> & -> & ->)|(-> & ->)]].
  - cbn [app avc_program read_entries]. change (240 mod 16 =? 0) with true. change (0 =? 0) with true. cbn [andb]. rewrite IH1. split; [reflexivity|]. rewrite !len_cons, IH2. split; [lia|].
    repeat (apply Forall_cons; [unfold byte; lia|]). exact IH3.
  - cbn [app aac_program read_entries]. change (240 mod 16 =? 0) with true. change (0 =? 0) with true. cbn [andb]. rewrite IH1. split; [reflexivity|]. rewrite !len_cons, IH2. split; [lia|].
    repeat (apply Forall_cons; [unfold byte; lia|]). exact IH3.
  - cbn [app]. repeat split; assumption.
Qed.
Lemma pcr_low_range mt : forall d, 0 <= d <= 1 -> 0 <= pcr_low mt d <= 1.
Proof. induction mt as [|t mt IH]; intros d H; [exact H|]. cbn [pcr_low fold_left]. apply IH. destruct (t =? PktVideo); [lia|]. destruct (t =? PktAudio); lia. Qed.
Lemma pcr_low_snoc mt t d : pcr_low (mt ++ [t]) d = if t =? PktVideo then 0 else if t =? PktAudio then 1 else pcr_low mt d.
Proof. unfold pcr_low. rewrite fold_left_app. reflexivity. Qed.
Lemma pmt_reads m mt : tm_ok m -> len (media_entries mt) <= 33 ->
  exists s pl body, snd (ts_pmt m mt) = Ok s /\ read_packet s = Some (mkTs true 0x1001 (tcc (tm_pmtcc m)) None pl) /\
    read_section pl = Some (2, 13 + 5 * len (media_entries mt), body) /\ read_pmt body = Some (1, 0x100 + pcr_low mt 0, media_entries mt).
Proof.
  intros HM HL. pose proof HM as (H1 & H2 & H3 & H4 & _). destruct (read_programs mt) as (R1 & R2 & R3).
  pose proof (pmt_programs_eq mt 0 []) as EP. cbn [app] in EP. set (info := flat_map prog mt) in *.
  pose proof (len_nonneg (media_entries mt)) as H0.
  pose proof (ts_pmt_ok m mt _ info HM EP ltac:(lia)) as E. cbv zeta in E. rewrite E. cbn [snd]. clear E.
  pose proof (pcr_low_range mt 0 ltac:(lia)) as HPC. set (pcr := pcr_low mt 0) in *.
  replace (u8 (len info + 13)) with (len info + 13) by (unfold u8; lia).
  set (body := [0; 1; 0xc1; 0; 0; 0xe1; pcr; 0xf0; 0] ++ info). assert (HB : len body = 9 + len info) by (unfold body; rewrite len_app; reflexivity).
  destruct (read_table 0x50 1 (tcc (tm_pmtcc m)) 2 0xb0 (len info + 13) body) as (pl & E1 & E2); try lia.
  - apply tcc_range, H4.
  - repeat (apply Forall_cons; [unfold byte; lia|]). exact R3.
  - eexists _, pl, body. split; [reflexivity|]. split; [exact E1|]. split; [rewrite E2, HB; do 3 f_equal; lia|].
    unfold body, read_pmt. cbn [app]. change (193 mod 2 =? 1) with true. change (240 mod 16 =? 0) with true. change (0 =? 0) with true. cbn [andb]. rewrite R1.
    change (0 * 256 + 1) with 1. change (225 mod 32 * 256 + pcr) with (256 + pcr). reflexivity.
Qed.
Lemma pat_reads m : tm_ok m ->
  exists s pl body, snd (ts_pat m) = Ok s /\ read_packet s = Some (mkTs true 0 (tcc (tm_patcc m)) None pl) /\
    read_section pl = Some (0, 13, body) /\ read_pat body = Some (1, [(1, 0x1001)]).
Proof.
  intros HM. pose proof HM as (H1 & H2 & H3 & _). rewrite ts_pat_ok by exact HM. cbn [snd].
  destruct (read_table 0x40 0 (tcc (tm_patcc m)) 0 0xb0 0x0d [0; 1; 0xc1; 0; 0; 0; 1; 0xf0; 1]) as (pl & E1 & E2); try lia; try (unfold len; cbn [length]; lia).
  - apply tcc_range, H3.
  - repeat (apply Forall_cons; [unfold byte; lia|]). constructor.
  - eexists _, pl, _. split; [reflexivity|]. split; [exact E1|]. split; [exact E2|]. reflexivity.
Qed.
Lemma sdt_reads m desc : tm_ok m -> is_bytes desc -> len desc <= 163 ->
  exists s pl body, snd (ts_sdt m desc) = Ok s /\ read_packet s = Some (mkTs true 0x11 0 None pl) /\
    read_section pl = Some (0x42, 17 + len desc, body) /\ read_sdt body = Some (1, 0xff01, 1, desc).
Proof.
  intros HM HB HL. pose proof (len_nonneg desc) as H0. pose proof (ts_sdt_ok m desc HM HL) as E. cbv zeta in E. rewrite E. cbn [snd]. clear E.
  set (body := [0; 1; 0xc1; 0; 0; 0xff; 1; 0xff; 0; 1; 0xfc; 0x80; len desc] ++ desc). assert (HBl : len body = 13 + len desc) by (unfold body; rewrite len_app; reflexivity).
  destruct (read_table 0x40 0x11 0 0x42 0xf0 (17 + len desc) body) as (pl & E1 & E2); try lia.
  - repeat (apply Forall_cons; [unfold byte; lia|]). exact HB.
  - eexists _, pl, body. split; [reflexivity|]. split; [exact E1|]. split; [rewrite E2, HBl; do 3 f_equal; lia|].
    unfold body, read_sdt. cbn [app]. change (193 mod 2 =? 1) with true. change (128 mod 16 * 256 + len desc) with (len desc). rewrite Z.eqb_refl. reflexivity.
Qed.

(** ** Frames *)
Definition pid_of (p : packet) : Z := 256 + lo_of p.
Lemma run_ok_writer calls w : never_fails w -> never_fails (fst (run_plan calls (Ok tt) w)).
Proof. intros H. rewrite run_plan_ok by exact H. exact H. Qed.
Lemma packets_len fuel : forall hi lo key first cc dts D, len D <= Z.of_nat fuel ->
  len (packets fuel hi lo key first cc dts D) = if len D =? 0 then 0 else (len D + (if first && key then 8 else 0) + 183) / 184.
Proof.
  induction fuel as [|fuel IH]; intros hi lo key first cc dts D HL; pose proof (len_nonneg D) as H0; destruct D as [|b D]; try reflexivity.
  - rewrite len_cons in *. pose proof (len_nonneg D). lia.
  - cbn [packets]. cbv zeta. set (t := b :: D) in *. assert (Ht : 1 <= len t) by (unfold t; rewrite len_cons; pose proof (len_nonneg D); lia). rewrite len_cons.
    assert (HR : 176 <= room (first && key) <= 184) by (unfold room; destruct (first && key); lia).
    assert (HD : len (drop t (room (first && key))) = Z.max 0 (len t - room (first && key))).
    { destruct (Z_le_dec (room (first && key)) (len t)); [rewrite len_drop by lia; lia|]. unfold drop. rewrite skipn_all2; [change (len []) with 0; lia|]. unfold len in *. lia. }
    rewrite IH by lia. replace (len t =? 0) with false by lia. cbn [andb]. rewrite HD. unfold room in *. destruct (first && key); match goal with |- context [?a =? 0] => destruct (Z.eqb_spec a 0) end; lia.
Qed.
Lemma mux_frame m p dts pts w : tm_ok m -> can_mux p -> (is_key p = true -> ~ 176 <= len (mux_bytes p dts pts) <= 183) -> never_fails w ->
  exists m' w' o p0 l, ts_mux m p dts pts w = (m', (w', Ok tt)) /\ w_out w' = w_out w ++ o /\ never_fails w' /\
    read_stream o = Some (p0 :: l) /\ Forall (fun q => ts_pid q = pid_of p) (p0 :: l) /\
    continuous ((cc_of (p_type p) m + 1) mod 16) (p0 :: l) /\
    ts_pusi p0 = true /\ packet_mark p0 = Some (is_key p, if is_key p then Some (dts mod 2 ^ 33, 0) else None) /\ Forall plain l /\
    concat (map ts_payload (p0 :: l)) =
      (if is_key p && (len (mux_bytes p dts pts) <? 184) then stuffing (176 - len (mux_bytes p dts pts)) else []) ++ mux_bytes p dts pts /\
    tm_ok m' /\ same_but (p_type p) m m' /\ cc_of (p_type p) m' = (cc_of (p_type p) m + len (p0 :: l)) mod 16 /\
    w_calls w' = (w_calls w + length (p0 :: l))%nat /\ len (p0 :: l) = (len (mux_bytes p dts pts) + (if is_key p then 8 else 0) + 183) / 184.
Proof.
  intros HM HC Hno HW. pose proof (ts_mux_ok m p dts pts w HM HC Hno) as H. destruct (ts_mux m p dts pts w) as [m' wr].
  destruct H as (EW & HM' & HS & HCL & ECC). rewrite run_plan_ok in EW by exact HW.
  assert (HT : p_type p = PktVideo \/ p_type p = PktAudio) by (destruct HC as [H|[H _]]; auto).
  assert (HD : mux_bytes p dts pts <> []).
  { intros E. pose proof (len_pes_bytes (p_type p) (media_of p) pts dts HT) as HL. unfold mux_bytes in E. rewrite E in HL. change (len []) with 0 in HL.
    pose proof (len_nonneg (media_of p)). unfold pes_head_len in HL. destruct (both_stamps _ _ _); lia. }
  assert (Hcc : 0 <= cc_of (p_type p) m < 16) by (destruct HM as (A & B & _); unfold cc_of; destruct (p_type p =? PktVideo); assumption).
  assert (Hlo : lo_of p = 0 \/ lo_of p = 1) by (unfold lo_of; destruct (p_type p =? PktVideo); auto).
  destruct (packets_read (Z.to_nat (len (mux_bytes p dts pts))) (lo_of p) (is_key p) true (cc_of (p_type p) m) dts (mux_bytes p dts pts) Hlo Hcc HD)
    as (p0 & l & E1 & E2 & E3 & E4 & E5 & E6 & E7 & E8); [pose proof (len_nonneg (mux_bytes p dts pts)); lia|exact Hno|].
  fold (mux_packets m p dts pts) in E1, E2. cbn [andb] in *. subst wr. cbn [fst w_calls] in *.
  eexists m', _, _, p0, l. split; [reflexivity|]. cbn [w_out w_calls]. split; [reflexivity|]. split; [exact HW|]. split; [exact E1|]. split; [exact E3|].
  split; [exact E4|]. split; [exact E5|]. split; [exact E6|]. split; [exact E7|]. split; [exact E8|]. split; [exact HM'|]. split; [exact HS|]. split; [|split; [rewrite E2; reflexivity|]].
  2: { unfold len at 1. cbn [length]. rewrite <- E2. fold (len (mux_packets m p dts pts)). unfold mux_packets. rewrite packets_len by (pose proof (len_nonneg (mux_bytes p dts pts)); lia). cbn [andb]. destruct (Z.eqb_spec (len (mux_bytes p dts pts)) 0) as [Z0|_]; [apply len_zero in Z0; contradiction|reflexivity]. }
  rewrite ECC. f_equal. f_equal. unfold len. cbn [length]. rewrite E2. lia.
Qed.

(** ** Streams of frames *)
Definition stream_from (c c' : Z) (l : list tspkt) : Prop := continuous ((c + 1) mod 16) l /\ c' = (c + len l) mod 16.
Lemma continuous_app a : forall c b, continuous (c mod 16) a -> continuous ((c + len a) mod 16) b -> continuous (c mod 16) (a ++ b).
Proof.
  induction a as [|x a IH]; intros c b H1 H2; [cbn [app]; change (len []) with 0 in H2; rewrite Z.add_0_r in H2; exact H2|].
  cbn [app continuous] in *. destruct H1 as (H1 & H3). split; [exact H1|]. rewrite Zplus_mod_idemp_l in *. apply IH; [exact H3|].
  rewrite len_cons in H2. replace (c + 1 + len a) with (c + (1 + len a)) by lia. exact H2.
Qed.
Lemma stream_from_app c c1 c2 a b : stream_from c c1 a -> stream_from c1 c2 b -> stream_from c c2 (a ++ b).
Proof.
  intros (A1 & A2) (B1 & B2). split.
  - apply continuous_app; [exact A1|]. subst c1. rewrite Zplus_mod_idemp_l in B1. replace (c + 1 + len a) with (c + len a + 1) by lia. exact B1.
  - subst c2 c1. rewrite Zplus_mod_idemp_l, len_app. f_equal. lia.
Qed.
Lemma stream_from_nil c : 0 <= c < 16 -> stream_from c c []. Proof. intros H. split; [exact I|]. change (len []) with 0. rewrite Z.add_0_r. symmetry. apply Z.mod_small, H. Qed.
Lemma on_pid_app pid a b : on_pid pid (a ++ b) = on_pid pid a ++ on_pid pid b. Proof. apply filter_app. Qed.
Lemma on_pid_all pid l : Forall (fun q => ts_pid q = pid) l -> on_pid pid l = l.
Proof. induction 1 as [|q l H _ IH]; [reflexivity|]. unfold on_pid in *. cbn [filter]. rewrite H, Z.eqb_refl, IH. reflexivity. Qed.
Lemma on_pid_none pid pid' l : pid <> pid' -> Forall (fun q => ts_pid q = pid') l -> on_pid pid l = [].
Proof. intros Hne. induction 1 as [|q l H _ IH]; [reflexivity|]. unfold on_pid in *. cbn [filter]. rewrite H. replace (pid' =? pid) with false by lia. exact IH. Qed.

(** What a muxer has sent between two states. *)
Record sent (m m' : tsmux) (l : list tspkt) : Prop := mkSent {
  sent_v : stream_from (tm_vcc m) (tm_vcc m') (on_pid 0x100 l);
  sent_a : stream_from (tm_acc m) (tm_acc m') (on_pid 0x101 l);
  sent_pid : Forall (fun q => ts_pid q = 0x100 \/ ts_pid q = 0x101) l;
  sent_pcr : Forall (fun q => ts_pid q = 0x101 -> packet_pcr q = Some None) l }.
Lemma sent_nil m : tm_ok m -> sent m m [].
Proof. intros (A & B & _). split; [apply stream_from_nil, A|apply stream_from_nil, B|constructor|constructor]. Qed.
Lemma sent_app m m1 m2 a b : sent m m1 a -> sent m1 m2 b -> sent m m2 (a ++ b).
Proof.
  intros [A1 A2 A3 A4] [B1 B2 B3 B4]. split; rewrite ?on_pid_app; try (eapply stream_from_app; eassumption); apply Forall_app; split; assumption.
Qed.
Lemma mux_sent m p dts pts w : tm_ok m -> never_fails w ->
  let '(m', (w', r)) := ts_mux m p dts pts w in
  r <> Panic -> exists o l, w_out w' = w_out w ++ o /\ never_fails w' /\ read_stream o = Some l /\ sent m m' l /\ tm_ok m'.
Proof.
  intros HM HW. destruct (can_mux_dec p) as [HC|HC].
  - assert (HD : (is_key p = true /\ 176 <= len (mux_bytes p dts pts) <= 183) \/ (is_key p = true -> ~ 176 <= len (mux_bytes p dts pts) <= 183)).
    { destruct (is_key p); [|right; discriminate]. destruct (Z_le_dec 176 (len (mux_bytes p dts pts))); [|right; lia].
      destruct (Z_le_dec (len (mux_bytes p dts pts)) 183); [left; lia|right; lia]. }
    destruct HD as [[HK HT]|Hno].
    + destruct (ts_mux_panic m p dts pts w HM HC HK HT) as (m' & -> & _). congruence.
    + destruct (mux_frame m p dts pts w HM HC Hno HW) as (m' & w' & o & p0 & l & -> & E1 & E2 & E3 & E4 & E5 & E6 & E7 & E8 & E9 & E10 & E11 & E12 & _).
      intros _. exists o, (p0 :: l). split; [exact E1|]. split; [exact E2|]. split; [exact E3|]. split; [|exact E10].
      destruct E11 as (_ & _ & _ & _ & _ & S6). pose proof HM as (A & B & _). unfold pid_of, lo_of, cc_of in *.
      destruct (Z.eqb_spec (p_type p) PktVideo) as [Hv|Hv].
      * split.
        -- rewrite on_pid_all by exact E4. split; [exact E5|exact E12].
        -- rewrite (on_pid_none 257 256) by (lia || exact E4). rewrite S6. apply stream_from_nil, B.
        -- eapply Forall_impl; [|exact E4]. intros q Hq. left. exact Hq.
        -- eapply Forall_impl; [|exact E4]. cbn beta. intros q Hq Hq'. lia.
      * split.
        -- rewrite (on_pid_none 256 257) by (lia || exact E4). rewrite S6. apply stream_from_nil, A.
        -- rewrite on_pid_all by exact E4. split; [exact E5|exact E12].
        -- eapply Forall_impl; [|exact E4]. intros q Hq. right. exact Hq.
        -- assert (HK : is_key p = false) by (unfold is_key; replace (p_type p =? PktVideo) with false by lia; reflexivity). rewrite HK in E7.
           apply Forall_cons; [intros _; exact (mark_pcr _ _ _ E7)|]. eapply Forall_impl; [|exact E8]. intros q (_ & Hq) _. exact (mark_pcr _ _ _ Hq).
  - rewrite ts_mux_refused by exact HC. intros _. exists [], []. rewrite app_nil_r. split; [reflexivity|]. split; [exact HW|]. split; [reflexivity|]. split; [apply sent_nil, HM|exact HM].
Qed.
Lemma mux_run_sent os : forall m w, tm_ok m -> never_fails w ->
  let '(m', w', rs) := tsmux_run m os w in
  ~ In Panic rs -> exists o l, w_out w' = w_out w ++ o /\ never_fails w' /\ read_stream o = Some l /\ sent m m' l /\ tm_ok m'.
Proof.
  induction os as [|[[p dts] pts] os IH]; intros m w HM HW; cbn [tsmux_run].
  - intros _. exists [], []. rewrite app_nil_r. split; [reflexivity|]. split; [exact HW|]. split; [reflexivity|]. split; [apply sent_nil, HM|exact HM].
  - pose proof (mux_sent m p dts pts w HM HW) as H1. destruct (ts_mux m p dts pts w) as [m1 [w1 r]].
    specialize (IH m1 w1). destruct (tsmux_run m1 os w1) as [[m2 w2] rs]. intros HN. cbn [In] in HN.
    destruct H1 as (o1 & l1 & A1 & A2 & A3 & A4 & A5); [intros ->; tauto|].
    destruct (IH A5 A2) as (o2 & l2 & B1 & B2 & B3 & B4 & B5); [tauto|].
    exists (o1 ++ o2), (l1 ++ l2). split; [rewrite B1, A1, app_assoc; reflexivity|]. split; [exact B2|]. split; [apply read_stream_app; assumption|].
    split; [eapply sent_app; eassumption|exact B5].
Qed.

(** ** Synchronisation *)
Lemma i64_id z : -9223372036854775808 <= z < 9223372036854775808 -> i64 z = z.
Proof. intros H. unfold i64. rewrite Z.mod_small by lia. lia. Qed.
Definition sync_inv (s : sync) (n : Z) : Prop := 0 <= s_dts s < 4294967296 /\ 0 <= s_num s <= n /\ s_ms s = 900.
Lemma quot_inc rate : 0 < rate -> 0 <= Z.quot 92160000 rate <= 92160000 /\ (rate <= 92160000 -> 1 <= Z.quot 92160000 rate).
Proof.
  intros H. rewrite Z.quot_div_nonneg by lia. split; [split; [apply Z.div_pos; lia|apply Z.div_le_upper_bound; nia]|].
  intros H2. apply Z.div_le_lower_bound; lia.
Qed.
Lemma sync_step s n dts rate : sync_inv s n -> n <= 8589934592 -> 0 <= dts < 4294967296 -> 0 < rate ->
  let inc := Z.quot 92160000 rate in
  let pts := s_dts s + s_num s * inc in
  sync_audio s dts rate =
    (if Z.abs (pts - dts) <=? 900 then Ok (mkS (s_num s + 1) (s_dts s) 900, pts) else Ok (mkS 1 dts 900, dts)).
Proof.
  intros (H1 & H2 & H3) Hn Hd Hr. cbv zeta. destruct (quot_inc rate Hr) as (Q & _). unfold sync_audio. replace (rate =? 0) with false by lia. change (90 * 1000 * 1024) with 92160000.
  set (inc := Z.quot 92160000 rate) in *. rewrite H3.
  assert (HM : 0 <= s_num s * inc <= 8589934592 * 92160000) by nia. rewrite (i64_id (s_num s * inc)) by lia. rewrite (i64_id (s_dts s + _)) by lia.
  set (pts := s_dts s + s_num s * inc) in *. rewrite (i64_id (s_num s + 1)) by lia.
  assert (E : (if dts <=? pts then i64 (pts - dts) else i64 (dts - pts)) = Z.abs (pts - dts)).
  { destruct (Z.leb_spec dts pts); rewrite i64_id by lia; lia. }
  rewrite E. reflexivity.
Qed.
Lemma sync_step_ok s n dts rate : sync_inv s n -> 1 <= n <= 8589934592 -> 0 <= dts < 4294967296 -> 0 < rate ->
  exists s' d, sync_audio s dts rate = Ok (s', d) /\ Z.abs (d - dts) <= 900 /\ sync_inv s' (n + 1) /\
    (rate <= 92160000 -> s_num s' <= 4294968197).
Proof.
  intros HI Hn Hd Hr. pose proof (sync_step s n dts rate HI ltac:(lia) Hd Hr) as E. cbv zeta in E. rewrite E. destruct HI as (H1 & H2 & H3).
  destruct (quot_inc rate Hr) as (Q & Q2). set (inc := Z.quot 92160000 rate) in *. set (pts := s_dts s + s_num s * inc) in *.
  destruct (Z.leb_spec (Z.abs (pts - dts)) 900) as [HG|HG]; eexists _, _; (split; [reflexivity|]).
  - split; [exact HG|]. split; [unfold sync_inv; cbn [s_dts s_num s_ms]; lia|]. intros Hr2. specialize (Q2 Hr2). cbn [s_num]. unfold pts in HG. nia.
  - split; [lia|]. split; [unfold sync_inv; cbn [s_dts s_num s_ms]; lia|]. intros _. cbn [s_num]. lia.
Qed.
Lemma sync_step_bounded s dts rate : sync_inv s 4294968197 -> 0 <= dts < 4294967296 -> 0 < rate <= 92160000 ->
  exists s' d, sync_audio s dts rate = Ok (s', d) /\ Z.abs (d - dts) <= 900 /\ sync_inv s' 4294968197.
Proof.
  intros HI Hd Hr. destruct (sync_step_ok s _ dts rate HI ltac:(lia) Hd ltac:(lia)) as (s' & d & E & H1 & (A & B & C) & H3). exists s', d.
  split; [exact E|]. split; [exact H1|]. split; [exact A|]. split; [|exact C]. specialize (H3 ltac:(lia)). lia.
Qed.

(** ** Mixer *)
From Verif Require Import Spec.Parsers Proofs.Parsers.

Definition codec_ok (c : codec) : Prop := match cp_mp3 c with Some m => In m mp3_rates | None => True end.
Lemma mp3_parse_rates p b : In p mp3_rates -> In (fst (mp3_parse p b)) mp3_rates.
Proof.
  intros H. unfold mp3_parse. destruct (len b <? 3); [exact H|]. change (len mp3_rates) with 3.
  destruct (Z.ltb_spec (Z.land (Z.shiftr (at_ b 2) 1) 3) 3) as [HL|HL]; [|exact H]. cbn [fst]. apply nth_In. cbn [length mp3_rates].
  pose proof (Z.land_nonneg (Z.shiftr (at_ b 2) 1) 3). lia.
Qed.
Lemma codec_parse_ok c p w : codec_ok c -> codec_ok (fst (codec_parse c p w)).
Proof.
  intros H. rewrite codec_parse_route. destruct (route_of p) as [| |s m|t m|m]; try exact H.
  - destruct (h264_parse _ m s w). exact H.
  - destruct (aac_parse _ m t w). exact H.
  - assert (HI : In (or_new (cp_mp3 c) new_mp3) mp3_rates).
    { unfold codec_ok in H. destruct (cp_mp3 c); [exact H|]. cbn. auto. }
    pose proof (mp3_parse_rates _ m HI) as H2. destruct (mp3_parse _ m) as [x r]. exact H2.
Qed.
Lemma codec_rate_range c r : codec_ok c -> codec_rate c = Ok r -> 7350 <= r <= 96000.
Proof.
  unfold codec_rate, codec_ok. intros H E. destruct (cp_aac c) as [a|].
  - injection E as <-. unfold aac_sample_rate. change (len aac_rates) with 13. destruct (Z.ltb_spec (ac_rate a) 13) as [HL|HL]; [|lia].
    assert (HI : In (nth (Z.to_nat (ac_rate a)) aac_rates 0) aac_rates) by (apply nth_In; cbn [length aac_rates]; lia).
    revert HI. generalize (nth (Z.to_nat (ac_rate a)) aac_rates 0). intros z HI. cbn [In aac_rates] in HI. lia.
  - destruct (cp_mp3 c) as [m|]; [|discriminate]. injection E as <-. cbn [In mp3_rates] in H. lia.
Qed.

Definition mix_inv (x : tsmix) : Prop :=
  tm_ok (x_muxer x) /\ codec_ok (x_codec x) /\ sync_inv (x_sync x) 4294968197 /\ 0 <= x_dts x < 2 ^ 33 /\ 0 <= x_pts x < 2 ^ 33 /\
  (exists a, tcc (tm_patcc (x_muxer x)) = a mod 16) /\ (exists b, tcc (tm_pmtcc (x_muxer x)) = b mod 16).
Lemma tbl_of m : tm_ok m -> (exists a, tcc (tm_patcc m) = a mod 16) /\ (exists b, tcc (tm_pmtcc m) = b mod 16).
Proof. intros (_ & _ & H3 & H4 & _). split; eexists; symmetry; apply Z.mod_small; apply tcc_range; assumption. Qed.
Lemma mix_inv_intro x : tm_ok (x_muxer x) -> codec_ok (x_codec x) -> sync_inv (x_sync x) 4294968197 -> 0 <= x_dts x < 2 ^ 33 -> 0 <= x_pts x < 2 ^ 33 -> mix_inv x.
Proof. intros H1 H2 H3 H4 H5. pose proof (tbl_of _ H1) as (A & B). unfold mix_inv; tauto. Qed.
Lemma new_mix_inv : mix_inv new_tsmix.
Proof. apply mix_inv_intro; [exact new_tsmux_ok|exact I|repeat split; cbn; lia|split; [discriminate|reflexivity]|split; [discriminate|reflexivity]]. Qed.
Lemma tbl_ok_step m w o : tm_ok m -> tm_ok (fst (fst (tbl_step (m, w) o))).
Proof. intros H. destruct (tbl_of m H) as ((a & A) & (b & B)). apply (tbl_step_inv m w o a b). split; [exact H|split; assumption]. Qed.
Lemma sdt_ok m d : tm_ok m -> tm_ok (fst (ts_sdt m d)).
Proof. intros H. pose proof (tbl_ok_step m buffer0 (TSdt d) H) as E. cbn [tbl_step] in E. destruct (ts_sdt m d). exact E. Qed.
Lemma pat_ok m : tm_ok m -> tm_ok (fst (ts_pat m)).
Proof. intros H. pose proof (tbl_ok_step m buffer0 TPat H) as E. cbn [tbl_step] in E. destruct (ts_pat m). exact E. Qed.
Lemma pmt_ok m d : tm_ok m -> tm_ok (fst (ts_pmt m d)).
Proof. intros H. pose proof (tbl_ok_step m buffer0 (TPmt d) H) as E. cbn [tbl_step] in E. destruct (ts_pmt m d). exact E. Qed.
Lemma set_header_muxer x w : exists k, mix_set_header x w = (set_muxer k x, snd (mix_set_header x w)) /\ (tm_ok (x_muxer x) -> tm_ok k).
Proof.
  unfold mix_set_header. pose proof (sdt_ok (x_muxer x) (x_meta x)) as H1. destruct (ts_sdt (x_muxer x) (x_meta x)) as [k1 r1]. cbn [fst] in H1.
  destruct r1; try (exists k1; split; [reflexivity|exact H1]).
  pose proof (pat_ok k1) as H2. destruct (ts_pat k1) as [k2 r2]. cbn [fst] in H2. destruct r2; try (exists k2; split; [reflexivity|auto]).
  pose proof (pmt_ok k2 (types_to_slice (x_types x))) as H3. destruct (ts_pmt k2 (types_to_slice (x_types x))) as [k3 r3]. cbn [fst] in H3.
  destruct r3; exists k3; split; try reflexivity; auto.
Qed.
Lemma mix_step_inv x w o : mix_inv x -> mix_inv (fst (fst (mix_step (x, w) o))).
Proof.
  intros (HM & HC & HS & HD & HP & _). destruct o as [p|md|p|p| |p a b|w2]; cbn [mix_step].
  - unfold mix_mux, mix_parse. pose proof (codec_parse_ok (x_codec x) p buffer0 HC) as HC'. destruct (codec_parse (x_codec x) p buffer0) as [c [w1 r]]. cbn [fst] in HC'.
    destruct r; cbn [fst]; [|apply mix_inv_intro; cbn [x_muxer x_codec x_sync x_dts x_pts set_codec]; assumption..].
    cbn [x_muxer set_codec x_dts x_pts]. match goal with |- context [ts_mux ?m ?q ?d ?t ?v] => pose proof (ts_mux_inv m q d t v HM) as (HM' & _); destruct (ts_mux m q d t v) as [k [w3 r3]] end.
    cbn [fst] in *. apply mix_inv_intro; cbn [x_muxer x_codec x_sync x_dts x_pts set_codec set_muxer]; assumption.
  - apply mix_inv_intro; cbn [fst mix_save_metadata x_muxer x_codec x_sync x_dts x_pts set_meta]; assumption.
  - unfold mix_save_avc, mix_save_header, mix_parse. cbn [x_codec set_types]. pose proof (codec_parse_ok (x_codec x) p buffer0 HC) as HC'. destruct (codec_parse (x_codec x) p buffer0) as [c [w1 r]]. cbn [fst] in HC'.
    destruct r; cbn [fst]; [|apply mix_inv_intro; cbn [x_muxer x_codec x_sync x_dts x_pts set_codec set_types]; assumption..].
    cbn [x_muxer set_codec set_types x_dts x_pts]. match goal with |- context [ts_mux ?m ?q ?d ?t ?v] => pose proof (ts_mux_inv m q d t v HM) as (HM' & _); destruct (ts_mux m q d t v) as [k [w3 r3]] end.
    cbn [fst] in *. apply mix_inv_intro; cbn [x_muxer x_codec x_sync x_dts x_pts set_codec set_muxer set_types]; assumption.
  - unfold mix_save_aac, mix_save_header, mix_parse. cbn [x_codec set_types]. pose proof (codec_parse_ok (x_codec x) p buffer0 HC) as HC'. destruct (codec_parse (x_codec x) p buffer0) as [c [w1 r]]. cbn [fst] in HC'.
    destruct r; cbn [fst]; [|apply mix_inv_intro; cbn [x_muxer x_codec x_sync x_dts x_pts set_codec set_types]; assumption..].
    cbn [x_muxer set_codec set_types x_dts x_pts]. match goal with |- context [ts_mux ?m ?q ?d ?t ?v] => pose proof (ts_mux_inv m q d t v HM) as (HM' & _); destruct (ts_mux m q d t v) as [k [w3 r3]] end.
    cbn [fst] in *. apply mix_inv_intro; cbn [x_muxer x_codec x_sync x_dts x_pts set_codec set_muxer set_types]; assumption.
  - destruct (set_header_muxer x w) as (k & E & HK). destruct (mix_set_header x w) as [x' [w' r]]. injection E as ->. cbn [fst].
    apply mix_inv_intro; cbn [x_muxer x_codec x_sync x_dts x_pts set_muxer]; auto.
  - change (2 ^ 33) with 8589934592 in *. unfold mix_update. assert (HU : forall z, 0 <= u32 z < 4294967296) by (intros z; unfold u32; lia).
    pose proof (HU (a * 90)) as U1. pose proof (HU (b * 90)) as U2.
    destruct (p_type p =? PktVideo); [apply mix_inv_intro; change (2 ^ 33) with 8589934592; cbn [fst x_muxer x_codec x_sync x_dts x_pts set_times]; first [assumption|lia]|].
    destruct (p_type p =? PktAudio); [|apply mix_inv_intro; change (2 ^ 33) with 8589934592; cbn [fst x_muxer x_codec x_sync x_dts x_pts set_times]; first [assumption|lia]].
    destruct (codec_rate (x_codec x)) as [rate| | |] eqn:ER; [|apply mix_inv_intro; change (2 ^ 33) with 8589934592; cbn [fst x_muxer x_codec x_sync x_dts x_pts set_times]; first [assumption|lia]..].
    pose proof (codec_rate_range _ _ HC ER) as HR. destruct (sync_step_bounded (x_sync x) (u32 (a * 90)) rate HS U1 ltac:(lia)) as (s' & d & E & E1 & E2).
    assert (Hd : 0 <= d).
    { pose proof (sync_step (x_sync x) _ (u32 (a * 90)) rate HS ltac:(lia) U1 ltac:(lia)) as E3. cbv zeta in E3. rewrite E3 in E. destruct (quot_inc rate ltac:(lia)) as (Q & _).
      destruct HS as (S1 & S2 & _). destruct (_ <=? 900); inversion E; subst; [|lia]. assert (0 <= s_num (x_sync x) * Z.quot 92160000 rate) by (apply Z.mul_nonneg_nonneg; lia). lia. }
    rewrite E. apply mix_inv_intro; change (2 ^ 33) with 8589934592; cbn [fst x_muxer x_codec x_sync x_dts x_pts set_times]; first [assumption|lia].
  - apply mix_inv_intro; assumption.
Qed.
Lemma mix_run_inv os : forall x w, mix_inv x -> mix_inv (fst (fst (mix_run (x, w) os))).
Proof.
  induction os as [|o os IH]; intros x w H; cbn [mix_run]; [exact H|]. pose proof (mix_step_inv x w o H) as H1. destruct (mix_step (x, w) o) as [[x1 w1] r]. cbn [fst] in H1.
  specialize (IH x1 w1 H1). destruct (mix_run (x1, w1) os) as [[x2 w2] rs]. exact IH.
Qed.

(** The codec state of a Mixer. *)
Definition mix_packets (os : list mix_op) : list (packet * writer) :=
  flat_map (fun o => match o with XMux p | XSaveAVC p | XSaveAAC p => [(p, buffer0)] | _ => [] end) os.
Lemma mix_step_codec x w o : x_codec (fst (fst (mix_step (x, w) o))) = fst (codec_run (x_codec x) (mix_packets [o])).
Proof.
  destruct o as [p|md|p|p| |p a b|w2]; cbn [mix_step mix_packets flat_map app codec_run]; try reflexivity.
  - unfold mix_mux, mix_parse. destruct (codec_parse (x_codec x) p buffer0) as [c [w1 r]]. destruct r; try reflexivity. destruct (ts_mux _ _ _ _ _) as [k [w3 r3]]. reflexivity.
  - unfold mix_save_avc, mix_save_header, mix_parse. cbn [x_codec set_types]. destruct (codec_parse (x_codec x) p buffer0) as [c [w1 r]]. destruct r; try reflexivity. destruct (ts_mux _ _ _ _ _) as [k [w3 r3]]. reflexivity.
  - unfold mix_save_aac, mix_save_header, mix_parse. cbn [x_codec set_types]. destruct (codec_parse (x_codec x) p buffer0) as [c [w1 r]]. destruct r; try reflexivity. destruct (ts_mux _ _ _ _ _) as [k [w3 r3]]. reflexivity.
  - destruct (set_header_muxer x w) as (k & E & HK). destruct (mix_set_header x w) as [x' [w' r]]. injection E as ->. reflexivity.
  - unfold mix_update. destruct (p_type p =? PktVideo); [reflexivity|]. destruct (p_type p =? PktAudio); [|reflexivity].
    destruct (codec_rate (x_codec x)); try reflexivity. destruct (sync_audio _ _ _) as [[s d]| | |]; reflexivity.
Qed.
Lemma mix_run_codec os : forall x w, x_codec (fst (fst (mix_run (x, w) os))) = fst (codec_run (x_codec x) (mix_packets os)).
Proof.
  induction os as [|o os IH]; intros x w; [reflexivity|]. cbn [mix_run]. pose proof (mix_step_codec x w o) as H. destruct (mix_step (x, w) o) as [[x1 w1] r]. cbn [fst] in H.
  specialize (IH x1 w1). destruct (mix_run (x1, w1) os) as [[x2 w2] rs]. cbn [fst] in *. rewrite IH, H.
  change (mix_packets (o :: os)) with (mix_packets ([o] ++ os)). unfold mix_packets. rewrite flat_map_app. fold (mix_packets [o]) (mix_packets os).
  rewrite codec_run_app. destruct (codec_run (x_codec x) (mix_packets [o])) as [c1 r1]. cbn [fst]. destruct (codec_run c1 (mix_packets os)). reflexivity.
Qed.

(** A successful Mux of a Mixer is a successful Mux of the converted media. *)
Lemma set_media_type b p : p_type (set_media b p) = p_type p. Proof. reflexivity. Qed.
Lemma set_media_of b p : media_of (set_media b p) = b. Proof. reflexivity. Qed.
Lemma set_media_key b p : is_key (set_media b p) = is_key p. Proof. reflexivity. Qed.
Lemma set_media_can b p : can_mux (set_media b p) <-> can_mux p. Proof. unfold can_mux, video_of. cbn [set_media p_type p_header]. tauto. Qed.
Lemma mux_result x p w : mix_mux x p w =
  match codec_parse (x_codec x) p buffer0 with
  | (c, (wc, Ok _)) => let '(k, wr) := ts_mux (x_muxer x) (set_media (w_out wc) p) (x_dts x) (x_pts x) w in (set_muxer k (set_codec c x), set_media (w_out wc) p, wr)
  | (c, (_, r)) => (set_codec c x, p, (w, r))
  end.
Proof. unfold mix_mux, mix_parse. destruct (codec_parse (x_codec x) p buffer0) as [c [wc r]]. destruct r; reflexivity. Qed.
Lemma codec_accepts_can c p w c' w' : codec_parse c p w = (c', (w', Ok tt)) -> can_mux p.
Proof.
  rewrite codec_parse_route. unfold route_of, can_mux, is_key, video_of, audio_of. destruct (p_header p) as [h|]; [|discriminate]. destruct (p_media p) as [m|]; [|discriminate].
  destruct (Z.eqb_spec (p_type p) PktVideo) as [HV|HV].
  - destruct (h_video h) as [v|]; [|discriminate]. intros _. right. split; [exact HV|discriminate].
  - destruct (Z.eqb_spec (p_type p) PktAudio) as [HA|HA]; [|discriminate]. intros _. left. exact HA.
Qed.

(** What SetTsHeader writes. *)
Definition tables (x : tsmix) : tsmux * res (list bytes) :=
  let '(k, rs) := ts_sdt (x_muxer x) (x_meta x) in
  match rs with
  | Ok sdt => let '(k, ra) := ts_pat k in
    match ra with
    | Ok pat => let '(k, rm) := ts_pmt k (types_to_slice (x_types x)) in (k, let* pmt := rm in Ok [sdt; pat; pmt])
    | _ => (k, let* _ := ra in Ok []) end
  | _ => (k, let* _ := rs in Ok []) end.
Lemma set_header_tables x w : mix_set_header x w =
  match tables x with (k, Ok l) => (set_muxer k x, run_plan l (Ok tt) w) | (k, r) => (set_muxer k x, (w, let* _ := r in Ok tt)) end.
Proof.
  unfold mix_set_header, tables. destruct (ts_sdt (x_muxer x) (x_meta x)) as [k1 [s| | |]]; try reflexivity.
  destruct (ts_pat k1) as [k2 [a| | |]]; try reflexivity. destruct (ts_pmt k2 _) as [k3 [b| | |]]; reflexivity.
Qed.

Lemma table_packet b1 b2 c sec : b1 < 128 -> 64 <= b1 -> 0 <= c < 16 -> len sec <= 179 ->
  exists pl, read_packet (table [0x47; b1; b2; 16 + c; 0] sec) = Some (mkTs true (b1 mod 32 * 256 + b2) c None pl).
Proof.
  intros H1 H2 Hc HL. pose proof (len_table [0x47; b1; b2; 16 + c; 0] sec eq_refl HL) as HLT. unfold table in *. cbn [app] in *. unfold read_packet. rewrite HLT.
  change (188 =? 188) with true. change (71 =? 71) with true.
  replace (b1 <? 128) with true by lia. replace (16 + c <? 64) with true by lia. cbn [andb]. replace ((16 + c) / 16) with 1 by lia.
  replace ((16 + c) mod 16) with c by lia. replace (64 <=? b1) with true by lia. eexists. reflexivity.
Qed.
Lemma types_entries t : len (media_entries (types_to_slice t)) <= 2.
Proof. unfold types_to_slice. destruct (_ =? 1), (_ =? 2); vm_compute; discriminate. Qed.
Lemma tcc_succ c : 0 <= c <= 16 -> tcc (u8 (tcc c + 1)) = (tcc c + 1) mod 16.
Proof. intros H. apply (tcc_next c (tcc c) H). symmetry. apply Z.mod_small, tcc_range, H. Qed.
Lemma sdt_step m d : tm_ok m -> len d <= 163 ->
  exists k s ps, ts_sdt m d = (k, Ok s) /\ tm_ok k /\ read_packet s = Some (mkTs true 0x11 0 None ps) /\
    (is_bytes d -> exists body, read_section ps = Some (0x42, 17 + len d, body) /\ read_sdt body = Some (1, 0xff01, 1, d)) /\
    tm_vcc k = tm_vcc m /\ tm_acc k = tm_acc m /\ tm_patcc k = tm_patcc m /\ tm_pmtcc k = tm_pmtcc m.
Proof.
  intros HM HL. pose proof (ts_sdt_ok m d HM HL) as E1. cbv zeta in E1. pose proof (sdt_ok m d HM) as K1.
  pose proof (sdt_reads m d HM) as SR. rewrite E1 in K1, SR. rewrite E1. cbn [fst snd] in *.
  match type of E1 with _ = (set_sdt (table ?h ?sec) m, _) => destruct (table_packet 64 17 0 sec) as (ps & EPs); [lia..|rewrite len_app; unfold len at 1; cbn [length]; lia|]; change [71; 64; 17; 16 + 0; 0] with h in EPs; set (s := table h sec) in * end.
  exists (set_sdt s m), s, ps. split; [reflexivity|]. split; [exact K1|]. split; [exact EPs|]. split; [|repeat split].
  intros HB. destruct (SR HB HL) as (s' & ps' & body & S1 & S2 & S3 & S4). injection S1 as <-. rewrite EPs in S2. injection S2 as <-. exists body. split; assumption.
Qed.
Lemma pat_step m : tm_ok m ->
  exists k s pl body, ts_pat m = (k, Ok s) /\ tm_ok k /\ read_packet s = Some (mkTs true 0 (tcc (tm_patcc m)) None pl) /\
    read_section pl = Some (0, 13, body) /\ read_pat body = Some (1, [(1, 0x1001)]) /\
    tm_vcc k = tm_vcc m /\ tm_acc k = tm_acc m /\ tcc (tm_patcc k) = (tcc (tm_patcc m) + 1) mod 16 /\ tm_pmtcc k = tm_pmtcc m.
Proof.
  intros HM. pose proof HM as (_ & _ & B3 & _). pose proof (pat_reads m HM) as (s & pl & body & A1 & A2 & A3 & A4). pose proof (pat_ok m HM) as K. rewrite (ts_pat_ok m HM) in *. cbn [fst snd] in *. injection A1 as <-.
  eexists _, _, pl, body. split; [reflexivity|]. split; [exact K|]. split; [exact A2|]. split; [exact A3|]. split; [exact A4|]. split; [reflexivity|]. split; [reflexivity|]. split; [|reflexivity].
  cbn [set_pat tm_patcc]. apply tcc_succ, B3.
Qed.
Lemma pmt_step m mt : tm_ok m -> len (media_entries mt) <= 33 ->
  exists k s pl body, ts_pmt m mt = (k, Ok s) /\ tm_ok k /\ read_packet s = Some (mkTs true 0x1001 (tcc (tm_pmtcc m)) None pl) /\
    read_section pl = Some (2, 13 + 5 * len (media_entries mt), body) /\ read_pmt body = Some (1, 0x100 + pcr_low mt 0, media_entries mt) /\
    tm_vcc k = tm_vcc m /\ tm_acc k = tm_acc m /\ tm_patcc k = tm_patcc m /\ tcc (tm_pmtcc k) = (tcc (tm_pmtcc m) + 1) mod 16.
Proof.
  intros HM HL. pose proof HM as (_ & _ & _ & B4 & _). pose proof (pmt_reads m mt HM HL) as (s & pl & body & A1 & A2 & A3 & A4). pose proof (pmt_ok m mt HM) as K.
  destruct (read_programs mt) as (_ & R2 & _). pose proof (ts_pmt_ok m mt _ _ HM (pmt_programs_eq mt 0 []) ltac:(cbn [app]; lia)) as E. cbv zeta in E. rewrite E in *. cbn [fst snd] in *. injection A1 as <-.
  eexists _, _, pl, body. split; [reflexivity|]. split; [exact K|]. split; [exact A2|]. split; [exact A3|]. split; [exact A4|]. split; [reflexivity|]. split; [reflexivity|]. split; [reflexivity|].
  cbn [set_pmt tm_pmtcc]. apply tcc_succ, B4.
Qed.
Lemma tables_ok x : tm_ok (x_muxer x) -> len (x_meta x) <= 163 ->
  exists k s a b ps pa pb bodya bodyb, tables x = (k, Ok [s; a; b]) /\ tm_ok k /\
    read_packet s = Some (mkTs true 0x11 0 None ps) /\
    read_packet a = Some (mkTs true 0 (tcc (tm_patcc (x_muxer x))) None pa) /\
    read_packet b = Some (mkTs true 0x1001 (tcc (tm_pmtcc (x_muxer x))) None pb) /\
    (is_bytes (x_meta x) -> exists body, read_section ps = Some (0x42, 17 + len (x_meta x), body) /\ read_sdt body = Some (1, 0xff01, 1, x_meta x)) /\
    read_section pa = Some (0, 13, bodya) /\ read_pat bodya = Some (1, [(1, 0x1001)]) /\
    read_section pb = Some (2, 13 + 5 * len (media_entries (types_to_slice (x_types x))), bodyb) /\
    read_pmt bodyb = Some (1, 0x100 + pcr_low (types_to_slice (x_types x)) 0, media_entries (types_to_slice (x_types x))) /\
    tm_vcc k = tm_vcc (x_muxer x) /\ tm_acc k = tm_acc (x_muxer x) /\
    tcc (tm_patcc k) = (tcc (tm_patcc (x_muxer x)) + 1) mod 16 /\ tcc (tm_pmtcc k) = (tcc (tm_pmtcc (x_muxer x)) + 1) mod 16.
Proof.
  intros HM HL. destruct (sdt_step _ _ HM HL) as (k1 & s & ps & E1 & K1 & S1 & S2 & S3 & S4 & S5 & S6).
  destruct (pat_step _ K1) as (k2 & a & pa & ba & E2 & K2 & A1 & A2 & A3 & A4 & A5 & A6 & A7).
  pose proof (types_entries (x_types x)) as HT.
  destruct (pmt_step _ (types_to_slice (x_types x)) K2 ltac:(lia)) as (k3 & b & pb & bb & E3 & K3 & P1 & P2 & P3 & P4 & P5 & P6 & P7).
  exists k3, s, a, b, ps, pa, pb, ba, bb. unfold tables. rewrite E1, E2, E3. cbn [bind]. rewrite S5 in *. rewrite A7, S6 in *. rewrite P6, P5, P4, A4, A5, S3, S4. repeat (split; [first [reflexivity|assumption]|]). assumption.
Qed.
Lemma tables_panic x : tm_ok (x_muxer x) -> 163 < len (x_meta x) -> exists k, tables x = (k, Panic).
Proof. intros HM HL. destruct (ts_sdt_panic _ _ HM HL) as (k & E). exists k. unfold tables. rewrite E. reflexivity. Qed.

Lemma read_packet_len s p : read_packet s = Some p -> len s = 188.
Proof.
  unfold read_packet. intros H. destruct s as [|a [|b [|c [|d s]]]]; try discriminate. destruct (Z.eqb_spec (len (a :: b :: c :: d :: s)) 188) as [E|E]; [exact E|].
  rewrite ?andb_false_r in H. cbn [andb] in H. discriminate.
Qed.
(** Streams of a Mixer. *)
Definition tstream (c c' : Z) (l : list tspkt) : Prop := continuous (c mod 16) l /\ c' = (c + len l) mod 16.
Lemma tstream_app c c1 c2 a b : tstream c c1 a -> tstream c1 c2 b -> tstream c c2 (a ++ b).
Proof.
  intros (A1 & A2) (B1 & B2). split.
  - apply continuous_app; [exact A1|]. subst c1. rewrite Z.mod_mod in B1 by lia. exact B1.
  - subst c2 c1. rewrite Zplus_mod_idemp_l, len_app. f_equal. lia.
Qed.
Lemma tstream_nil c : 0 <= c < 16 -> tstream c c []. Proof. intros H. split; [exact I|]. change (len []) with 0. rewrite Z.add_0_r. symmetry. apply Z.mod_small, H. Qed.
Record msent (m m' : tsmux) (l : list tspkt) : Prop := mkMSent {
  ms_v : stream_from (tm_vcc m) (tm_vcc m') (on_pid 0x100 l);
  ms_a : stream_from (tm_acc m) (tm_acc m') (on_pid 0x101 l);
  ms_pat : tstream (tcc (tm_patcc m)) (tcc (tm_patcc m')) (on_pid 0 l);
  ms_pmt : tstream (tcc (tm_pmtcc m)) (tcc (tm_pmtcc m')) (on_pid 0x1001 l);
  ms_sdt : Forall (fun q => ts_cc q = 0) (on_pid 0x11 l);
  ms_pid : Forall (fun q => In (ts_pid q) [0; 0x11; 0x100; 0x101; 0x1001]) l;
  ms_pcr : Forall (fun q => ts_pid q <> 0x100 -> packet_pcr q = Some None) l }.
Lemma msent_nil m : tm_ok m -> msent m m [].
Proof.
  intros (A & B & C & D & _). split; try (apply stream_from_nil; assumption); try (apply tstream_nil, tcc_range; assumption); constructor.
Qed.
Lemma msent_app m m1 m2 a b : msent m m1 a -> msent m1 m2 b -> msent m m2 (a ++ b).
Proof.
  intros [A1 A2 A3 A4 A5 A6 A7] [B1 B2 B3 B4 B5 B6 B7]. split; rewrite ?on_pid_app; try (eapply stream_from_app; eassumption); try (eapply tstream_app; eassumption); apply Forall_app; split; assumption.
Qed.
Lemma on_pid_far pid l : (forall q, In q l -> ts_pid q <> pid) -> on_pid pid l = [].
Proof.
  induction l as [|q l IH]; intros H; [reflexivity|]. unfold on_pid in *. cbn [filter]. pose proof (H q (or_introl eq_refl)). replace (ts_pid q =? pid) with false by lia.
  apply IH. intros q' Hq. apply H. right. exact Hq.
Qed.
Lemma sent_msent m m' l : tm_ok m -> tm_patcc m' = tm_patcc m -> tm_pmtcc m' = tm_pmtcc m -> sent m m' l -> msent m m' l.
Proof.
  intros (A & B & C & D & _) E1 E2 [S1 S2 S3 S4]. rewrite Forall_forall in S3. split.
  - exact S1.
  - exact S2.
  - rewrite on_pid_far by (intros q Hq; specialize (S3 q Hq); lia). rewrite E1. apply tstream_nil, tcc_range, C.
  - rewrite on_pid_far by (intros q Hq; specialize (S3 q Hq); lia). rewrite E2. apply tstream_nil, tcc_range, D.
  - rewrite on_pid_far by (intros q Hq; specialize (S3 q Hq); lia). constructor.
  - apply Forall_forall. intros q Hq. specialize (S3 q Hq). cbn [In]. lia.
  - apply Forall_forall. intros q Hq Hn. rewrite Forall_forall in S4. specialize (S3 q Hq). apply (S4 q Hq). lia.
Qed.
Definition quiet (o : mix_op) : Prop := match o with XSaveAVC _ | XSaveAAC _ | XSetWriter _ => False | _ => True end.
Lemma mix_step_sent x w o : mix_inv x -> quiet o -> never_fails w ->
  let '(x', w', r) := mix_step (x, w) o in
  r <> Panic -> exists out l, w_out w' = w_out w ++ out /\ never_fails w' /\ read_stream out = Some l /\ msent (x_muxer x) (x_muxer x') l.
Proof.
  intros HI HQ HW. pose proof HI as (HM & HC & _).
  assert (HNIL : forall x' r, x_muxer x' = x_muxer x -> r <> @Panic unit -> exists out l, w_out w = w_out w ++ out /\ never_fails w /\ read_stream out = Some l /\ msent (x_muxer x) (x_muxer x') l).
  { intros x' r E _. exists [], []. rewrite app_nil_r, E. split; [reflexivity|]. split; [exact HW|]. split; [reflexivity|apply msent_nil, HM]. }
  destruct o as [p|md|p|p| |p a b|w2]; try contradiction HQ; cbn [mix_step].
  - rewrite mux_result. destruct (codec_parse (x_codec x) p buffer0) as [c [wc r]]. destruct r as [u| | |]; try (apply HNIL; reflexivity).
    pose proof (mux_sent (x_muxer x) (set_media (w_out wc) p) (x_dts x) (x_pts x) w HM HW) as H.
    pose proof (ts_mux_inv (x_muxer x) (set_media (w_out wc) p) (x_dts x) (x_pts x) w HM) as (_ & (S1 & S2 & _)).
    destruct (ts_mux (x_muxer x) (set_media (w_out wc) p) (x_dts x) (x_pts x) w) as [k [w' r]]. cbn [fst] in *. intros Hr. destruct (H Hr) as (o & l & A1 & A2 & A3 & A4 & A5).
    exists o, l. split; [exact A1|]. split; [exact A2|]. split; [exact A3|]. cbn [set_muxer x_muxer]. apply sent_msent; assumption.
  - unfold mix_save_metadata. apply HNIL. reflexivity.
  - rewrite set_header_tables. destruct (Z_le_dec (len (x_meta x)) 163) as [HL|HL].
    + destruct (tables_ok x HM HL) as (k & s & a & b & ps & pa & pb & ba & bb & E & K & S1 & A1 & P1 & _ & _ & _ & _ & _ & V & A & C1 & C2). rewrite E. rewrite run_plan_ok by exact HW. cbn [fst].
      intros _. eexists _, _. split; [reflexivity|]. split; [exact HW|]. split.
      * cbn [concat]. rewrite app_nil_r. replace (s ++ a ++ b) with (s ++ a ++ b ++ []) by (rewrite app_nil_r; reflexivity). apply read_stream_cons; [eapply read_packet_len, S1|exact S1|]. apply read_stream_cons; [eapply read_packet_len, A1|exact A1|]. apply read_stream_cons; [eapply read_packet_len, P1|exact P1|]. reflexivity.
      * pose proof HM as (B1 & B2 & B3 & B4 & _). cbn [set_muxer x_muxer]. pose proof (tcc_range _ B3) as T3. pose proof (tcc_range _ B4) as T4. split.
        -- cbn. rewrite V. apply stream_from_nil, B1.
        -- cbn. rewrite A. apply stream_from_nil, B2.
        -- unfold on_pid. cbn [filter ts_pid]. change (17 =? 0) with false. change (0 =? 0) with true. change (4097 =? 0) with false. cbv iota. split; [|exact C1]. cbn [continuous ts_cc]. split; [symmetry; apply Z.mod_small, T3|exact I].
        -- unfold on_pid. cbn [filter ts_pid]. change (17 =? 4097) with false. change (0 =? 4097) with false. change (4097 =? 4097) with true. cbv iota. split; [|exact C2]. cbn [continuous ts_cc]. split; [symmetry; apply Z.mod_small, T4|exact I].
        -- unfold on_pid. cbn [filter ts_pid]. change (17 =? 17) with true. change (0 =? 17) with false. change (4097 =? 17) with false. cbv iota. apply Forall_cons; [reflexivity|constructor].
        -- repeat (apply Forall_cons; [cbn; lia|]). constructor.
        -- repeat (apply Forall_cons; [intros _; reflexivity|]). constructor.
    + destruct (tables_panic x HM ltac:(lia)) as (k & E). rewrite E. cbn [bind]. intros H. congruence.
  - unfold mix_update. destruct (p_type p =? PktVideo); [apply HNIL; reflexivity|]. destruct (p_type p =? PktAudio); [|apply HNIL; reflexivity].
    destruct (codec_rate (x_codec x)); try (apply HNIL; reflexivity). destruct (sync_audio _ _ _) as [[s d]| | |]; apply HNIL; reflexivity.
Qed.
Lemma mix_run_sent os : forall x w, mix_inv x -> Forall quiet os -> never_fails w ->
  let '(x', w', rs) := mix_run (x, w) os in
  ~ In Panic rs -> exists out l, w_out w' = w_out w ++ out /\ never_fails w' /\ read_stream out = Some l /\ msent (x_muxer x) (x_muxer x') l.
Proof.
  induction os as [|o os IH]; intros x w HI HQ HW; cbn [mix_run].
  - intros _. exists [], []. rewrite app_nil_r. split; [reflexivity|]. split; [exact HW|]. split; [reflexivity|apply msent_nil, HI].
  - inversion HQ as [|? ? Q1 Q2]; subst. pose proof (mix_step_sent x w o HI Q1 HW) as H1. pose proof (mix_step_inv x w o HI) as HI1. destruct (mix_step (x, w) o) as [[x1 w1] r]. cbn [fst] in HI1.
    specialize (IH x1 w1 HI1 Q2). destruct (mix_run (x1, w1) os) as [[x2 w2] rs]. intros HN. cbn [In] in HN.
    destruct H1 as (o1 & l1 & A1 & A2 & A3 & A4); [intros ->; tauto|].
    destruct (IH A2) as (o2 & l2 & B1 & B2 & B3 & B4); [tauto|].
    exists (o1 ++ o2), (l1 ++ l2). split; [rewrite B1, A1, app_assoc; reflexivity|]. split; [exact B2|]. split; [apply read_stream_app; assumption|]. eapply msent_app; eassumption.
Qed.
Lemma read_stream_fuel_len n : forall s l, read_stream_fuel n s = Some l -> len s = 188 * len l.
Proof.
  induction n as [|n IH]; intros s l H; destruct s as [|b s]; cbn [read_stream_fuel] in H; try discriminate; try (injection H as <-; reflexivity).
  set (t := b :: s) in *. destruct (read_packet (take t 188)) as [p|] eqn:E1; [|discriminate]. destruct (read_stream_fuel n (drop t 188)) as [l'|] eqn:E2; [|discriminate].
  injection H as <-. apply IH in E2. apply read_packet_len in E1. rewrite len_cons, <- (take_drop t 188), len_app, E1, E2. lia.
Qed.
Lemma read_stream_len s l : read_stream s = Some l -> len s = 188 * len l.
Proof. apply read_stream_fuel_len. Qed.

(** Short key frames: what is before the PES header hides it. *)
Lemma stuffed_unreadable n ty media pts dts : 1 <= n -> ty = PktVideo \/ ty = PktAudio -> read_pes (stuffing n ++ pes_bytes ty media pts dts) = None.
Proof.
  intros Hn HT. unfold stuffing. destruct (Z.eqb_spec n 1) as [->|H1].
  - unfold pes_bytes. rewrite generate_pes_ok by exact HT. cbv zeta. cbn [fst]. unfold pes_head_len. destruct (both_stamps ty pts dts); cbn [app];
    unfold take; [change (Z.to_nat 19) with (S (S (S (S (Z.to_nat 15)))))|change (Z.to_nat 14) with (S (S (S (S (Z.to_nat 10)))))]; cbn [firstn app]; reflexivity.
  - cbn [app]. unfold read_pes. destruct (Z.eq_dec n 2) as [->|H2]; [reflexivity|]. destruct (n - 1) as [|q|q] eqn:E; [lia|reflexivity|lia].
Qed.
