(** C31-C51, C102-C105: MPEG-TS tables, packetisation, timestamps, the Mixer. Terms are read with Spec/Ts.v. *)
From Verif Require Import Base.Go Base.GoFacts Base.IO Proofs.IOFacts Model.AmfTypes Model.Packet Model.Parsers Model.Crc32 Model.Ts
  Spec.Crc32 Spec.Parsers Spec.Ts Proofs.Crc32 Proofs.Parsers Proofs.TsPackets Proofs.TsTables Proofs.TsMore Spec.Failed Proofs.IOFail.
Local Ltac Zify.zify_post_hook ::= Z.div_mod_to_equations.

(** ** Vocabulary *)
(** A muxer, or a Mixer, some calls have brought about, with any writer. *)
Definition muxer_used (m : tsmux) : Prop := exists os w w' rs, tbl_run (new_tsmux, w) os = (m, w', rs).
Definition mixer_used (x : tsmix) : Prop := exists os w w' rs, mix_run (new_tsmix, w) os = (x, w', rs).
Definition pat_calls (os : list tbl_op) : Z := len (filter (fun o => match o with TPat => true | _ => false end) os).
Definition pmt_calls (os : list tbl_op) : Z := len (filter (fun o => match o with TPmt _ => true | _ => false end) os).
(** An audio packet, or a video packet with a video header; its PID and whether it is a key frame. *)
Definition frame (p : packet) (pid : Z) (key : bool) : Prop :=
  (p_type p = 1 /\ pid = 0x101 /\ key = false) \/
  (p_type p = 0 /\ pid = 0x100 /\ exists vh, video_of p = Some vh /\ v_key vh = key).
(** Size of the PES packet: a header of 14 bytes, or 19 when a video frame has both timestamps, and the media. *)
Definition pes_total (p : packet) (dts pts : Z) : Z := (if (p_type p =? 0) && negb (pts =? dts) then 19 else 14) + len (media_of p).

Lemma used_ok m : muxer_used m -> tm_ok m.
Proof.
  intros (os & w & w' & rs & E). pose proof (tbl_run_inv os new_tsmux w 0 0 new_tbl_inv) as H. rewrite E in H. apply H.
Qed.
Lemma mixer_ok x : mixer_used x -> mix_inv x.
Proof. intros (os & w & w' & rs & E). pose proof (mix_run_inv os new_tsmix w new_mix_inv) as H. rewrite E in H. exact H. Qed.
Lemma frame_can p pid key : frame p pid key -> can_mux p /\ is_key p = key /\ pid_of p = pid /\ (p_type p = PktVideo \/ p_type p = PktAudio).
Proof.
  intros [(H & -> & ->)|(H & -> & vh & Hv & <-)]; unfold can_mux, is_key, pid_of, lo_of; rewrite H.
  - repeat split; auto.
  - rewrite Hv. repeat split; auto. right. split; [reflexivity|discriminate].
Qed.
Lemma total_len p dts pts : p_type p = PktVideo \/ p_type p = PktAudio -> len (mux_bytes p dts pts) = pes_total p dts pts.
Proof. intros H. unfold mux_bytes. rewrite len_pes_bytes by exact H. unfold pes_head_len, both_stamps, pes_total. change PktVideo with 0. lia. Qed.

(** ** C31-C34, C36: tables *)
Theorem C31_pat : forall os w m w' rs, tbl_run (new_tsmux, w) os = (m, w', rs) ->
  exists s p body, snd (ts_pat m) = Ok s /\ len s = 188 /\ read_packet s = Some p /\
    ts_pid p = 0 /\ ts_pusi p = true /\ ts_af p = None /\ ts_cc p = pat_calls os mod 16 /\
    read_section (ts_payload p) = Some (0, 13, body) /\ read_pat body = Some (1, [(1, 0x1001)]).
Proof.
  intros os w m w' rs E. pose proof (tbl_run_inv os new_tsmux w 0 0 new_tbl_inv) as H. rewrite E in H. cbn [fst] in H. destruct H as (HM & HA & _).
  destruct (pat_reads m HM) as (s & pl & body & A1 & A2 & A3 & A4). exists s, (mkTs true 0 (tcc (tm_patcc m)) None pl), body.
  split; [exact A1|]. split; [eapply read_packet_len, A2|]. split; [exact A2|]. cbn [ts_pid ts_pusi ts_af ts_cc ts_payload]. repeat (split; [reflexivity|]). split; [exact HA|]. split; assumption.
Qed.
Print Assumptions C31_pat.
Example C31_example : exists m w' rs, tbl_run (new_tsmux, buffer0) [TPat; TPmt [0; 1]; TPat; TSdt [1; 2]] = (m, w', rs) /\
  pat_calls [TPat; TPmt [0; 1]; TPat; TSdt [1; 2]] = 2 /\ exists s, snd (ts_pat m) = Ok s /\ take s 4 = [0x47; 0x40; 0; 0x12].
Proof. eexists _, _, _. split; [vm_compute; reflexivity|]. split; [reflexivity|]. eexists. split; vm_compute; reflexivity. Qed.

Theorem C32_pmt : forall os w m w' rs types, tbl_run (new_tsmux, w) os = (m, w', rs) -> len (media_entries types) <= 33 ->
  exists s p body pcr, snd (ts_pmt m types) = Ok s /\ len s = 188 /\ read_packet s = Some p /\
    ts_pid p = 0x1001 /\ ts_pusi p = true /\ ts_af p = None /\ ts_cc p = pmt_calls os mod 16 /\
    read_section (ts_payload p) = Some (2, 13 + 5 * len (media_entries types), body) /\ read_pmt body = Some (1, pcr, media_entries types).
Proof.
  intros os w m w' rs mt E HL. pose proof (tbl_run_inv os new_tsmux w 0 0 new_tbl_inv) as H. rewrite E in H. cbn [fst] in H. destruct H as (HM & _ & HB).
  destruct (pmt_reads m mt HM HL) as (s & pl & body & A1 & A2 & A3 & A4). exists s, (mkTs true 0x1001 (tcc (tm_pmtcc m)) None pl), body, (0x100 + pcr_low mt 0).
  split; [exact A1|]. split; [eapply read_packet_len, A2|]. split; [exact A2|]. cbn [ts_pid ts_pusi ts_af ts_cc ts_payload]. repeat (split; [reflexivity|]). split; [exact HB|]. split; assumption.
Qed.
Print Assumptions C32_pmt.
(** The bound is exact: one more entry and PMT panics. *)
Theorem C32_pmt_overflow : forall m types, muxer_used m -> 33 < len (media_entries types) -> snd (ts_pmt m types) = Panic.
Proof.
  intros m mt Hm HL. destruct (read_programs mt) as (_ & R & _). destruct (ts_pmt_panic m mt _ _ (used_ok m Hm) (pmt_programs_eq mt 0 [])) as (m' & E); [cbn [app]; lia|]. rewrite E. reflexivity.
Qed.
Print Assumptions C32_pmt_overflow.
Example C32_example : media_entries [0; 7; 1] = [(0x1b, 0x100); (0x0f, 0x101)] /\ len (media_entries [0; 7; 1]) <= 33 /\ 33 < len (media_entries (repeat 1 34)).
Proof. split; [reflexivity|]. split; vm_compute; congruence. Qed.

(** No packet Mux makes on the audio PID carries a PCR, so a PMT that ends with audio announces a PCR_PID without PCRs. *)
Theorem C33_pcr_pid_refuted : forall m types, muxer_used m -> len (media_entries (types ++ [1])) <= 33 ->
  (exists s p n body es, snd (ts_pmt m (types ++ [1])) = Ok s /\ read_packet s = Some p /\
     read_section (ts_payload p) = Some (2, n, body) /\ read_pmt body = Some (1, 0x101, es)) /\
  (forall frames w m' w' rs, never_fails w -> tsmux_run m frames w = (m', w', rs) -> ~ In Panic rs ->
     exists out pkts, w_out w' = w_out w ++ out /\ read_stream out = Some pkts /\
       Forall (fun q => packet_pcr q = Some None) (on_pid 0x101 pkts)).
Proof.
  intros m mt Hm HL. pose proof (used_ok m Hm) as HM. split.
  - destruct (pmt_reads m (mt ++ [1]) HM HL) as (s & pl & body & A1 & A2 & A3 & A4). eexists s, _, _, body, _. split; [exact A1|]. split; [exact A2|]. split; [exact A3|].
    rewrite pcr_low_snoc in A4. exact A4.
  - intros frames w m' w' rs HW E HN. pose proof (mux_run_sent frames m w HM HW) as H. rewrite E in H. destruct (H HN) as (o & l & E1 & _ & E2 & [_ _ _ S] & _).
    exists o, l. split; [exact E1|]. split; [exact E2|]. unfold on_pid. apply Forall_forall. intros q Hq. apply filter_In in Hq as [Hq1 Hq2]. rewrite Forall_forall in S. apply S; [exact Hq1|lia].
Qed.
Print Assumptions C33_pcr_pid_refuted.
(** Missing: lists whose last audio or video entry is audio. Proved: when it is video, or there is none, the announced PID
    is the video PID (whose key frames carry the PCRs, C41). *)
Theorem C33_pcr_pid_partial : forall m types, muxer_used m -> len (media_entries types) <= 33 ->
  (types = [] \/ exists front, types = front ++ [0]) ->
  exists s p n body es, snd (ts_pmt m types) = Ok s /\ read_packet s = Some p /\
     read_section (ts_payload p) = Some (2, n, body) /\ read_pmt body = Some (1, 0x100, es).
Proof.
  intros m mt Hm HL HV. pose proof (used_ok m Hm) as HM. destruct (pmt_reads m mt HM HL) as (s & pl & body & A1 & A2 & A3 & A4). eexists s, _, _, body, _. split; [exact A1|]. split; [exact A2|]. split; [exact A3|].
  destruct HV as [->|[f ->]]; [exact A4|]. rewrite pcr_low_snoc in A4. exact A4.
Qed.
Print Assumptions C33_pcr_pid_partial.
Example C33_example : muxer_used new_tsmux /\ types_to_slice (types_is_audio (types_is_video new_types)) = [0] ++ [1] /\ len (media_entries ([0] ++ [1])) <= 33.
Proof. split; [exists [], buffer0, buffer0, []; reflexivity|]. split; [reflexivity|vm_compute; discriminate]. Qed.

Theorem C34_sdt : forall m desc, muxer_used m -> is_bytes desc -> len desc <= 163 ->
  exists s p body, snd (ts_sdt m desc) = Ok s /\ len s = 188 /\ read_packet s = Some p /\
    ts_pid p = 0x11 /\ ts_pusi p = true /\ ts_af p = None /\
    read_section (ts_payload p) = Some (0x42, 17 + len desc, body) /\ read_sdt body = Some (1, 0xff01, 1, desc).
Proof.
  intros m desc Hm HB HL. destruct (sdt_reads m desc (used_ok m Hm) HB HL) as (s & pl & body & A1 & A2 & A3 & A4). eexists s, _, body.
  split; [exact A1|]. split; [eapply read_packet_len, A2|]. split; [exact A2|]. repeat (split; [reflexivity|]). split; assumption.
Qed.
Print Assumptions C34_sdt.
Theorem C34_sdt_overflow : forall m desc, muxer_used m -> 163 < len desc -> snd (ts_sdt m desc) = Panic.
Proof. intros m desc Hm HL. destruct (ts_sdt_panic m desc (used_ok m Hm) HL) as (m' & E). rewrite E. reflexivity. Qed.
Print Assumptions C34_sdt_overflow.
Example C34_example : is_bytes (desc_service [] 1 [65; 66] [67]) /\ len (desc_service [] 1 [65; 66] [67]) <= 163.
Proof. split; [change (is_bytes [0x48; 6; 1; 2; 65; 66; 1; 67]); repeat (apply Forall_cons; [unfold byte; lia|]); apply Forall_nil|vm_compute; discriminate]. Qed.

Theorem C36_sdt_counter_refuted : forall m d1 d2, muxer_used m -> len d1 <= 163 -> len d2 <= 163 ->
  exists m1 m2 s1 s2 p1 p2, ts_sdt m d1 = (m1, Ok s1) /\ ts_sdt m1 d2 = (m2, Ok s2) /\
    read_packet s1 = Some p1 /\ read_packet s2 = Some p2 /\ ts_pid p1 = 0x11 /\ ts_pid p2 = 0x11 /\ ts_cc p1 = 0 /\ ts_cc p2 = 0.
Proof.
  intros m d1 d2 Hm H1 H2. destruct (sdt_step m d1 (used_ok m Hm) H1) as (k1 & s1 & ps1 & E1 & K1 & R1 & _). destruct (sdt_step k1 d2 K1 H2) as (k2 & s2 & ps2 & E2 & K2 & R2 & _).
  exists k1, k2, s1, s2. eexists _, _. split; [exact E1|]. split; [exact E2|]. split; [exact R1|]. split; [exact R2|]. repeat split; reflexivity.
Qed.
Print Assumptions C36_sdt_counter_refuted.

(** ** C37-C45: frames *)
(** A frame that is not a short key frame. *)
Theorem C37_packetisation : forall m p pid key dts pts w, muxer_used m -> frame p pid key ->
  (key = true -> 184 <= pes_total p dts pts) -> never_fails w ->
  exists m' w' out p0 rest e, ts_mux m p dts pts w = (m', (w', Ok tt)) /\ w_out w' = w_out w ++ out /\
    len out = 188 * len (p0 :: rest) /\ read_stream out = Some (p0 :: rest) /\ Forall (fun q => ts_pid q = pid) (p0 :: rest) /\
    ts_pusi p0 = true /\ Forall (fun q => ts_pusi q = false) rest /\
    read_pes (concat (map ts_payload (p0 :: rest))) = Some e /\ pes_payload e = media_of p /\
    pes_sid e = (if p_type p =? 0 then 0xe0 else 0xc0) /\
    (** as few packets as can hold the PES packet and, on a key frame, the 8 bytes of the adaptation field *)
    len (p0 :: rest) = (pes_total p dts pts + (if key then 8 else 0) + 183) / 184.
Proof.
  intros m p pid key dts pts w Hm HF HK HW. destruct (frame_can _ _ _ HF) as (HC & EK & EP & HT).
  destruct (mux_frame m p dts pts w (used_ok m Hm) HC) as (m' & w' & o & p0 & l & E & E1 & E2 & E3 & E4 & E5 & E6 & E7 & E8 & E9 & _ & _ & _ & _ & E14).
  { rewrite EK, total_len by exact HT. lia. } { exact HW. }
  rewrite EK in E9. rewrite total_len in E9 by exact HT. rewrite EP in E4.
  assert (EN : key && (pes_total p dts pts <? 184) = false) by (destruct key; [specialize (HK eq_refl); cbn [andb]; lia|reflexivity]). rewrite EN in E9. cbn [app] in E9.
  eexists m', w', o, p0, l, _. split; [exact E|]. split; [exact E1|]. split; [exact (read_stream_len _ _ E3)|]. split; [exact E3|]. split; [exact E4|]. split; [exact E6|].
  split; [eapply Forall_impl; [|exact E8]; intros q (A & _); exact A|]. cbn [map] in *. rewrite E9. split; [apply read_pes_ok, HT|]. split; [reflexivity|]. split; [reflexivity|]. rewrite EK, total_len in E14 by exact HT. exact E14.
Qed.
Print Assumptions C37_packetisation.

Definition ex_video (key : bool) (n : nat) : packet :=
  mkP 0 0 0 0 (Some (mkH (Some (mkVH key (negb key) false false true 7 0)) None)) [] (Some (repeat 0x55 n)).
Example C37_example : frame (ex_video true 1000) 0x100 true /\ 184 <= pes_total (ex_video true 1000) 90 180.
Proof. split; [right; repeat split; eexists; split; reflexivity|vm_compute; discriminate]. Qed.

(** The one panic of Mux on frames: a key frame whose PES packet has 176 to 183 bytes. *)
Theorem C38_mux_panics_refuted : forall m p dts pts w, muxer_used m -> frame p 0x100 true -> 176 <= pes_total p dts pts <= 183 ->
  snd (snd (ts_mux m p dts pts w)) = Panic.
Proof.
  intros m p dts pts w Hm HF HT. destruct (frame_can _ _ _ HF) as (HC & EK & EP & HTy). rewrite <- total_len in HT by exact HTy.
  destruct (ts_mux_panic m p dts pts w (used_ok m Hm) HC EK HT) as (m' & -> & _). reflexivity.
Qed.
Print Assumptions C38_mux_panics_refuted.
(** Missing: those key frames. Proved: every other frame, with any writer. *)
Theorem C38_mux_total_partial : forall m p pid key dts pts w, muxer_used m -> frame p pid key ->
  (key = true -> ~ 176 <= pes_total p dts pts <= 183) ->
  snd (snd (ts_mux m p dts pts w)) = Ok tt \/ snd (snd (ts_mux m p dts pts w)) = Err EWrite.
Proof.
  intros m p pid key dts pts w Hm HF HK. destruct (frame_can _ _ _ HF) as (HC & EK & EP & HTy).
  pose proof (ts_mux_ok m p dts pts w (used_ok m Hm) HC) as H. rewrite EK, total_len in H by exact HTy. specialize (H HK).
  destruct (ts_mux m p dts pts w) as [m' wr]. destruct H as (-> & _). cbn [snd].
  destruct (run_plan_any (mux_packets m p dts pts) (Ok tt) w) as (w' & r' & E & _ & [(-> & _)|(-> & _)]); rewrite E; auto.
Qed.
Print Assumptions C38_mux_total_partial.
Example C38_example : frame (ex_video true 160) 0x100 true /\ 176 <= pes_total (ex_video true 160) 90 180 <= 183 /\ ~ 176 <= pes_total (ex_video true 10) 90 180 <= 183.
Proof. split; [right; repeat split; eexists; split; reflexivity|]. split; vm_compute; intuition congruence. Qed.

(** Every key frame with a PES packet of at most 175 bytes: one packet is written, and its payload is not a PES packet. *)
Theorem C39_short_key_frame_refuted : forall m p dts pts w, muxer_used m -> frame p 0x100 true -> pes_total p dts pts <= 175 -> never_fails w ->
  exists m' w' out q junk, ts_mux m p dts pts w = (m', (w', Ok tt)) /\ w_out w' = w_out w ++ out /\ read_stream out = Some [q] /\
    read_pes (ts_payload q) = None /\ ts_payload q = junk ++ mux_bytes p dts pts /\ len junk = 176 - pes_total p dts pts.
Proof.
  intros m p dts pts w Hm HF HL HW. destruct (frame_can _ _ _ HF) as (HC & EK & EP & HT). pose proof (total_len p dts pts HT) as TL.
  destruct (mux_frame m p dts pts w (used_ok m Hm) HC) as (m' & w' & o & p0 & l & E & E1 & E2 & E3 & E4 & E5 & E6 & E7 & E8 & E9 & _ & _ & _ & _ & E14); [lia|exact HW|].
  rewrite EK, TL in E9. replace (pes_total p dts pts <? 184) with true in E9 by lia. cbn [andb] in E9.
  assert (Hl : l = []).
  { rewrite EK, TL in E14. pose proof (len_nonneg (media_of p)). assert (14 <= pes_total p dts pts) by (unfold pes_total; destruct (_ && _); lia). rewrite len_cons in E14. apply len_zero. lia. }
  subst l. cbn [map concat] in E9. rewrite app_nil_r in E9. exists m', w', o, p0, (stuffing (176 - pes_total p dts pts)).
  split; [exact E|]. split; [exact E1|]. split; [exact E3|]. rewrite E9. split; [apply stuffed_unreadable; [lia|exact HT]|]. split; [reflexivity|]. apply len_stuffing. lia.
Qed.
Print Assumptions C39_short_key_frame_refuted.
Example C39_example : frame (ex_video true 10) 0x100 true /\ pes_total (ex_video true 10) 90 180 <= 175.
Proof. split; [right; repeat split; eexists; split; reflexivity|vm_compute; discriminate]. Qed.

(** Any sequence of Mux calls that does not panic: on each media PID the counters follow each other, starting after the
    counter of the last packet before. [muxer_used] covers every state, so sequences may be split anywhere. *)
Theorem C40_continuity : forall m frames w m' w' rs, muxer_used m -> never_fails w -> tsmux_run m frames w = (m', w', rs) -> ~ In Panic rs ->
  exists out pkts, w_out w' = w_out w ++ out /\ read_stream out = Some pkts /\
    Forall (fun q => ts_pid q = 0x100 \/ ts_pid q = 0x101) pkts /\
    continuous ((tm_vcc m + 1) mod 16) (on_pid 0x100 pkts) /\ tm_vcc m' = (tm_vcc m + len (on_pid 0x100 pkts)) mod 16 /\
    continuous ((tm_acc m + 1) mod 16) (on_pid 0x101 pkts) /\ tm_acc m' = (tm_acc m + len (on_pid 0x101 pkts)) mod 16.
Proof.
  intros m frames w m' w' rs Hm HW E HN. pose proof (mux_run_sent frames m w (used_ok m Hm) HW) as H. rewrite E in H. destruct (H HN) as (o & l & E1 & _ & E2 & [(S1 & S2) (S3 & S4) S5 _] & _).
  exists o, l. repeat (split; [assumption|]). assumption.
Qed.
Print Assumptions C40_continuity.
Example C40_example : let '(m', w', rs) := tsmux_run new_tsmux [(ex_video true 1000, 0, 0); (ex_video false 10, 90, 90); (ex_video true 300, 180, 180)] buffer0 in
  rs = [Ok tt; Ok tt; Ok tt] /\ len (w_out w') = 188 * 9 /\ tm_vcc m' = 9.
Proof. vm_compute. repeat split. Qed.

(** The PCR, for every 64-bit dts; the packet that has it, and no other, is marked as a random access point. *)
Theorem C41_pcr : forall m p pid key dts pts w, muxer_used m -> frame p pid key ->
  (key = true -> ~ 176 <= pes_total p dts pts <= 183) -> never_fails w ->
  exists m' w' out p0 rest, ts_mux m p dts pts w = (m', (w', Ok tt)) /\ w_out w' = w_out w ++ out /\ read_stream out = Some (p0 :: rest) /\
    packet_mark p0 = Some (key, if key then Some (dts mod 2 ^ 33, 0) else None) /\ Forall (fun q => packet_mark q = Some (false, None)) rest.
Proof.
  intros m p pid key dts pts w Hm HF HK HW. destruct (frame_can _ _ _ HF) as (HC & EK & EP & HT).
  destruct (mux_frame m p dts pts w (used_ok m Hm) HC) as (m' & w' & o & p0 & l & E & E1 & E2 & E3 & E4 & E5 & E6 & E7 & E8 & _).
  { rewrite EK, total_len by exact HT. exact HK. } { exact HW. }
  exists m', w', o, p0, l. rewrite EK in E7. repeat (split; [assumption|]). eapply Forall_impl; [|exact E8]. intros q (_ & A). exact A.
Qed.
Print Assumptions C41_pcr.

(** The PES header of a frame that is not a short key frame. *)
Definition frame_pes (m : tsmux) (p : packet) (dts pts : Z) (w : writer) (e : pes) : Prop :=
  exists m' w' out pkts, ts_mux m p dts pts w = (m', (w', Ok tt)) /\ w_out w' = w_out w ++ out /\ read_stream out = Some pkts /\
    read_pes (concat (map ts_payload pkts)) = Some e.
Lemma frame_pes_ok m p pid key dts pts w : muxer_used m -> frame p pid key -> (key = true -> 184 <= pes_total p dts pts) -> never_fails w ->
  frame_pes m p dts pts w (mkPes (sid_of (p_type p)) (pes_size (pes_head_len (p_type p) pts dts) (len (media_of p))) (Some (2, stamp_val pts))
              (if both_stamps (p_type p) pts dts then Some (3, stamp_val dts) else None) (media_of p)).
Proof.
  intros Hm HF HK HW. destruct (frame_can _ _ _ HF) as (HC & EK & EP & HT).
  destruct (mux_frame m p dts pts w (used_ok m Hm) HC) as (m' & w' & o & p0 & l & E & E1 & E2 & E3 & E4 & E5 & E6 & E7 & E8 & E9 & _).
  { rewrite EK, total_len by exact HT. lia. } { exact HW. }
  rewrite EK in E9. rewrite total_len in E9 by exact HT.
  assert (EN : key && (pes_total p dts pts <? 184) = false) by (destruct key; [specialize (HK eq_refl); cbn [andb]; lia|reflexivity]). rewrite EN in E9. cbn [app] in E9.
  exists m', w', o, (p0 :: l). split; [exact E|]. split; [exact E1|]. split; [exact E3|]. rewrite E9. apply read_pes_ok, HT.
Qed.
Lemma stamp_small t : 0 <= t < 2 ^ 33 -> stamp_val t = t.
Proof. change (2 ^ 33) with 8589934592. intros H. unfold stamp_val. change (2 ^ 33) with 8589934592. replace (8589934591 <? t) with false by lia. lia. Qed.
Lemma stamp_big t : 2 ^ 33 <= t -> stamp_val t = (t + 1) mod 2 ^ 33.
Proof. unfold stamp_val. change (2 ^ 33) with 8589934592. intros H. replace (8589934591 <? t) with true by lia. lia. Qed.
Lemma both_video p pts dts : both_stamps (p_type p) pts dts = (p_type p =? 0) && negb (pts =? dts). Proof. reflexivity. Qed.

(** Timestamps below 2^33. DTS is present exactly for video frames with two different timestamps. *)
Theorem C42_timestamps : forall m p pid key dts pts w, muxer_used m -> frame p pid key -> (key = true -> 184 <= pes_total p dts pts) ->
  never_fails w -> 0 <= pts < 2 ^ 33 -> 0 <= dts < 2 ^ 33 ->
  exists e, frame_pes m p dts pts w e /\ option_map snd (pes_pts e) = Some pts /\
    option_map snd (pes_dts e) = if (p_type p =? 0) && negb (pts =? dts) then Some dts else None.
Proof.
  intros m p pid key dts pts w Hm HF HK HW HP HD. eexists. split; [eapply frame_pes_ok; eassumption|]. cbn [pes_pts pes_dts option_map snd]. rewrite !stamp_small by assumption.
  split; [reflexivity|]. rewrite both_video. destruct (_ && _); reflexivity.
Qed.
Print Assumptions C42_timestamps.

(** Every timestamp from 2^33 on is encoded one tick too high. *)
Theorem C43_wraparound_refuted : forall m p pid key dts pts w, muxer_used m -> frame p pid key -> (key = true -> 184 <= pes_total p dts pts) ->
  never_fails w -> 2 ^ 33 <= pts ->
  exists e v, frame_pes m p dts pts w e /\ option_map snd (pes_pts e) = Some v /\ v = (pts + 1) mod 2 ^ 33 /\ v <> pts mod 2 ^ 33.
Proof.
  intros m p pid key dts pts w Hm HF HK HW HP. eexists _, _. split; [eapply frame_pes_ok; eassumption|]. cbn [pes_pts option_map snd]. rewrite stamp_big by assumption.
  split; [reflexivity|]. split; [reflexivity|]. change (2 ^ 33) with 8589934592. lia.
Qed.
Print Assumptions C43_wraparound_refuted.
(** Missing: timestamps from 2^33 on, where the exact value is given. *)
Theorem C43_wraparound_partial : forall m p pid key dts pts w, muxer_used m -> frame p pid key -> (key = true -> 184 <= pes_total p dts pts) ->
  never_fails w -> 0 <= pts -> 0 <= dts ->
  let enc t := if t <? 2 ^ 33 then t mod 2 ^ 33 else (t + 1) mod 2 ^ 33 in
  exists e, frame_pes m p dts pts w e /\ option_map snd (pes_pts e) = Some (enc pts) /\
    option_map snd (pes_dts e) = if (p_type p =? 0) && negb (pts =? dts) then Some (enc dts) else None.
Proof.
  intros m p pid key dts pts w Hm HF HK HW HP HD enc.
  assert (HE : forall t, 0 <= t -> stamp_val t = enc t).
  { intros t Ht. unfold enc. destruct (Z.ltb_spec t (2 ^ 33)); [rewrite stamp_small by lia; symmetry; apply Z.mod_small; lia|apply stamp_big; assumption]. }
  eexists. split; [eapply frame_pes_ok; eassumption|]. cbn [pes_pts pes_dts option_map snd]. rewrite !HE by assumption. split; [reflexivity|]. rewrite both_video. destruct (_ && _); reflexivity.
Qed.
Print Assumptions C43_wraparound_partial.

(** With both timestamps the prefixes are 2 (should be 3) and 3 (should be 1), always. *)
Theorem C44_prefixes_refuted : forall m p key dts pts w, muxer_used m -> frame p 0x100 key -> (key = true -> 184 <= pes_total p dts pts) ->
  never_fails w -> pts <> dts ->
  exists e v d, frame_pes m p dts pts w e /\ pes_pts e = Some (2, v) /\ pes_dts e = Some (3, d).
Proof.
  intros m p key dts pts w Hm HF HK HW HN. eexists _, _, _. split; [eapply frame_pes_ok; eassumption|]. cbn [pes_pts pes_dts]. split; [reflexivity|].
  rewrite both_video. destruct HF as [(_ & H & _)|(H & _)]; [discriminate|]. rewrite H. replace (pts =? dts) with false by lia. reflexivity.
Qed.
Print Assumptions C44_prefixes_refuted.
(** Missing: frames with both timestamps. Proved: a frame with a PTS only has the prefix 2. *)
Theorem C44_prefixes_partial : forall m p pid key dts pts w, muxer_used m -> frame p pid key -> (key = true -> 184 <= pes_total p dts pts) ->
  never_fails w -> p_type p = 1 \/ pts = dts ->
  exists e v, frame_pes m p dts pts w e /\ pes_pts e = Some (2, v) /\ pes_dts e = None.
Proof.
  intros m p pid key dts pts w Hm HF HK HW HN. eexists _, _. split; [eapply frame_pes_ok; eassumption|]. cbn [pes_pts pes_dts]. split; [reflexivity|].
  rewrite both_video. destruct HN as [-> | ->]; [reflexivity|]. rewrite Z.eqb_refl, andb_false_r. reflexivity.
Qed.
Print Assumptions C44_prefixes_partial.

(** PES_packet_length counts what follows it, or is 0 when that does not fit. *)
Theorem C45_pes_length : forall m p pid key dts pts w, muxer_used m -> frame p pid key -> (key = true -> 184 <= pes_total p dts pts) ->
  never_fails w ->
  exists e, frame_pes m p dts pts w e /\ pes_len e = if pes_total p dts pts - 6 <=? 65535 then pes_total p dts pts - 6 else 0.
Proof.
  intros m p pid key dts pts w Hm HF HK HW. eexists. split; [eapply frame_pes_ok; eassumption|]. cbn [pes_len]. unfold pes_size, pes_head_len, pes_total. rewrite both_video.
  destruct (_ && _); cbv iota; match goal with |- (if ?a then _ else _) = (if ?b then _ else _) => destruct a eqn:?, b eqn:? end; lia.
Qed.
Print Assumptions C45_pes_length.
Example C42_example : frame (ex_video false 10) 0x100 false /\ 0 <= 8589934591 < 2 ^ 33 /\ frame (mkP 1 0 0 0 None [] (Some [1])) 0x101 false.
Proof. split; [right; repeat split; eexists; split; reflexivity|]. split; [vm_compute; intuition congruence|left; repeat split]. Qed.

(** ** C104: a writer that fails *)
(** Whatever the writer does, Mux returns nil after writing everything, or the writer's error after writing a prefix of
    the same packets; the packets do not depend on the writer. *)
Theorem C104_mux_writer_failure : forall m p pid key dts pts w m' w' r, muxer_used m -> frame p pid key ->
  (key = true -> ~ 176 <= pes_total p dts pts <= 183) -> ts_mux m p dts pts w = (m', (w', r)) ->
  exists out rest, w_out w' = w_out w ++ out /\ w_out (fst (snd (ts_mux m p dts pts buffer0))) = out ++ rest /\
    ((r = Ok tt /\ rest = [] /\ ~ failed w w') \/ (r = Err EWrite /\ failed w w')).
Proof.
  intros m p pid key dts pts w m' w' r Hm HF HK E. destruct (frame_can _ _ _ HF) as (HC & EK & EP & HTy).
  assert (H : forall w, snd (ts_mux m p dts pts w) = run_plan (mux_packets m p dts pts) (Ok tt) w).
  { intros w1. pose proof (ts_mux_ok m p dts pts w1 (used_ok m Hm) HC) as H. rewrite EK, total_len in H by exact HTy. specialize (H HK). destruct (ts_mux m p dts pts w1) as [m1 wr]. apply H. }
  pose proof (H w) as H1. rewrite E in H1. cbn [snd] in H1. rewrite (H buffer0). rewrite run_plan_ok by (intros n; reflexivity).
  symmetry in H1. exact (run_plan_outcome _ _ _ _ _ H1).
Qed.
Print Assumptions C104_mux_writer_failure.
