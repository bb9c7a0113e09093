(** C49: every continuity counter of a TS Mixer, whatever is called. *)
From Verif Require Import Base.Go Base.GoFacts Base.IO Proofs.IOFacts Model.AmfTypes Model.Packet Model.Parsers Model.Ts
  Spec.Parsers Spec.Ts Proofs.Parsers Proofs.TsPackets Proofs.TsTables Proofs.TsMore Props.Ts Props.TsMixer Spec.Mixer.

(** ** C49 *)
Definition is_save (o : mix_op) : bool := match o with XSaveAVC _ | XSaveAAC _ => true | _ => false end.
Definition no_writer_set (o : mix_op) : Prop := match o with XSetWriter _ => False | _ => True end.
(** Of the packets made by each call, those of the calls that write to the output. *)
Fixpoint sent_by (os : list mix_op) (made : list (list tspkt)) : list tspkt :=
  match os, made with
  | o :: os', l :: made' => (if is_save o then [] else l) ++ sent_by os' made'
  | _, _ => []
  end.
(** A sequence header for the H.264 and AAC parsers, and its PID. *)
Definition sequence_header (p : packet) (pid : Z) : Prop :=
  (p_type p = 0 /\ pid = 0x100 /\ exists v, video_of p = Some v /\ v_seq v = true) \/
  (p_type p = 1 /\ pid = 0x101 /\ exists a, audio_of p = Some a /\ a_aac a = true /\ a_aactype a = 0).
(** What is known of the packets a call makes. *)
Definition made_by (o : mix_op) (r : res unit) (l : list tspkt) : Prop :=
  (r <> Ok tt -> l = []) /\
  match o with
  | XMux p => r = Ok tt -> l <> [] /\ forall pid key, frame p pid key -> Forall (fun q => ts_pid q = pid) l
  | XSaveAVC p | XSaveAAC p => r = Ok tt -> l <> [] /\ (forall pid key, frame p pid key -> Forall (fun q => ts_pid q = pid) l) /\ forall pid, sequence_header p pid -> len l = 1
  | XHeader => r = Ok tt -> map ts_pid l = [0x11; 0; 0x1001]
  | _ => l = []
  end.

Lemma mux_made m p dts pts w : tm_ok m -> never_fails w ->
  let '(m', (w', r)) := ts_mux m p dts pts w in
  r <> Panic -> exists o l, w_out w' = w_out w ++ o /\ never_fails w' /\ read_stream o = Some l /\ msent m m' l /\
    (r <> Ok tt -> l = []) /\ (r = Ok tt -> l <> [] /\ Forall (fun q => ts_pid q = pid_of p) l /\ len l = (len (mux_bytes p dts pts) + (if is_key p then 8 else 0) + 183) / 184).
Proof.
  intros HM HW. pose proof (mux_sent m p dts pts w HM HW) as H. pose proof (ts_mux_inv m p dts pts w HM) as (_ & (S1 & S2 & _)). destruct (can_mux_dec p) as [HC|HC].
  - assert (HD : (is_key p = true /\ 176 <= len (mux_bytes p dts pts) <= 183) \/ (is_key p = true -> ~ 176 <= len (mux_bytes p dts pts) <= 183)).
    { destruct (is_key p); [|right; discriminate]. destruct (Z_le_dec 176 (len (mux_bytes p dts pts))); [|right; lia].
      destruct (Z_le_dec (len (mux_bytes p dts pts)) 183); [left; lia|right; lia]. }
    destruct HD as [[HK HT]|Hno].
    + destruct (ts_mux_panic m p dts pts w HM HC HK HT) as (m' & -> & _). congruence.
    + destruct (mux_frame m p dts pts w HM HC Hno HW) as (m' & w' & o & p0 & l & E0 & E1 & E2 & E3 & E4 & E5 & E6 & E7 & E8 & E9 & E10 & E11 & E12 & E13 & E14).
      rewrite E0 in *. cbn [fst] in *. intros Hr. destruct (H Hr) as (o' & l' & A1 & A2 & A3 & A4 & A5).
      assert (o' = o) as -> by (rewrite E1 in A1; apply app_inv_head in A1; symmetry; exact A1). rewrite E3 in A3. injection A3 as <-.
      exists o, (p0 :: l). split; [exact E1|]. split; [exact E2|]. split; [exact E3|]. split; [apply sent_msent; assumption|]. split; [congruence|].
      intros _. split; [discriminate|]. split; [exact E4|exact E14].
  - rewrite ts_mux_refused by exact HC. intros _. exists [], []. rewrite app_nil_r. split; [reflexivity|]. split; [exact HW|]. split; [reflexivity|]. split; [apply msent_nil, HM|].
    split; [reflexivity|destruct (p_type p =? PktVideo); discriminate].
Qed.
Lemma frame_pid p pid key : frame p pid key -> pid = pid_of p. Proof. intros H. destruct (frame_can _ _ _ H) as (_ & _ & E & _). symmetry. exact E. Qed.
Lemma header_nothing c p pid c' w r : sequence_header p pid -> codec_parse c p buffer0 = (c', (w, r)) -> w = buffer0.
Proof.
  unfold codec_parse. intros [(T & _ & v & Hv & HS)|(T & _ & a & Ha & HA & HT)].
  - destruct (p_header p) as [h|] eqn:EH; [|intros E; inversion E; reflexivity]. destruct (p_media p) as [m|]; [|intros E; inversion E; reflexivity].
    rewrite T, Hv. change (0 =? PktVideo) with true. cbv iota. destruct (v_avc v); [|intros E; inversion E; reflexivity]. unfold h264_parse. rewrite HS.
    destruct (len m =? 0); [intros E; inversion E; reflexivity|]. destruct (parse_specific_info _ _). intros E; inversion E; reflexivity.
  - destruct (p_header p) as [h|] eqn:EH; [|intros E; inversion E; reflexivity]. destruct (p_media p) as [m|]; [|intros E; inversion E; reflexivity].
    rewrite T, Ha, HA. change (1 =? PktVideo) with false. change (1 =? PktAudio) with true. cbv iota. unfold aac_parse. rewrite HT. change (0 =? 0) with true.
    destruct (len m =? 0); [intros E; inversion E; reflexivity|]. destruct (specific_info _ _). intros E; inversion E; reflexivity.
Qed.
Lemma step_made x w o : mix_inv x -> no_writer_set o -> never_fails w ->
  let '(x', w', r) := mix_step (x, w) o in
  r <> Panic -> exists out l, w_out w' = w_out w ++ out /\ never_fails w' /\ read_stream out = Some (if is_save o then [] else l) /\ msent (x_muxer x) (x_muxer x') l /\ made_by o r l.
Proof.
  intros HI HQ HW. pose proof HI as (HM & _).
  assert (SV : forall t p, let '(x', _, r) := mix_save_header t x p in
    r <> Panic -> exists l, msent (x_muxer x) (x_muxer x') l /\ (r <> Ok tt -> l = []) /\
      (r = Ok tt -> l <> [] /\ (forall pid key, frame p pid key -> Forall (fun q => ts_pid q = pid) l) /\ forall pid, sequence_header p pid -> len l = 1)).
  { intros t p. unfold mix_save_header, mix_parse. cbn [set_types x_codec]. destruct (codec_parse (x_codec x) p buffer0) as [c [wc r]] eqn:EP.
    destruct r as [u| | |]; try (intros _; exists []; split; [apply msent_nil, HM|]; split; [reflexivity|discriminate]).
    pose proof (mux_made (x_muxer x) (set_media (w_out wc) p) 0 0 buffer0 HM ltac:(intros n; reflexivity)) as H. cbn [set_codec set_types x_muxer].
    destruct (ts_mux (x_muxer x) (set_media (w_out wc) p) 0 0 buffer0) as [k [w' r]]. cbn [set_muxer x_muxer]. intros Hr. destruct (H Hr) as (o' & l & _ & _ & _ & A & B & C).
    exists l. split; [exact A|]. split; [exact B|]. intros E. destruct (C E) as (C1 & C2 & C3). split; [exact C1|]. split.
    - intros pid key HF. rewrite (frame_pid _ _ _ HF). exact C2.
    - intros pid HS. rewrite C3. rewrite total_len by (destruct HS as [(T & _)|(T & _)]; [left|right]; exact T). rewrite (header_nothing _ _ _ _ _ _ HS EP).
      unfold pes_total. cbn. rewrite andb_false_r. destruct (is_key _); reflexivity. }
  destruct o as [p|md|p|p| |p a b|w2]; cbn [no_writer_set] in HQ; try contradiction.
  - cbn [mix_step is_save]. rewrite mux_result. destruct (codec_parse (x_codec x) p buffer0) as [c [wc r]] eqn:EP.
    destruct r as [u| | |]; try (intros _; exists [], []; rewrite app_nil_r; split; [reflexivity|]; split; [exact HW|]; split; [reflexivity|]; split; [apply msent_nil, HM|]; split; [reflexivity|discriminate]).
    pose proof (mux_made (x_muxer x) (set_media (w_out wc) p) (x_dts x) (x_pts x) w HM HW) as H.
    destruct (ts_mux (x_muxer x) (set_media (w_out wc) p) (x_dts x) (x_pts x) w) as [k [w' r]]. intros Hr. destruct (H Hr) as (o' & l & A1 & A2 & A3 & A4 & B & C).
    exists o', l. split; [exact A1|]. split; [exact A2|]. split; [exact A3|]. split; [exact A4|]. split; [exact B|]. intros E. destruct (C E) as (C1 & C2 & _). split; [exact C1|].
    intros pid key HF. rewrite (frame_pid _ _ _ HF). exact C2.
  - pose proof (mix_step_sent x w (XMeta md) HI I HW) as H. cbn [mix_step is_save] in *. unfold mix_save_metadata in *. intros _. exists [], []. rewrite app_nil_r. split; [reflexivity|]. split; [exact HW|]. split; [reflexivity|].
    split; [apply msent_nil, HM|]. split; reflexivity.
  - cbn [mix_step is_save]. specialize (SV (types_is_video (x_types x)) p). unfold mix_save_avc. destruct (mix_save_header _ x p) as [[x' p'] r]. intros Hr. destruct (SV Hr) as (l & A & B & C).
    exists [], l. rewrite app_nil_r. split; [reflexivity|]. split; [exact HW|]. split; [reflexivity|]. split; [exact A|]. split; assumption.
  - cbn [mix_step is_save]. specialize (SV (types_is_audio (x_types x)) p). unfold mix_save_aac. destruct (mix_save_header _ x p) as [[x' p'] r]. intros Hr. destruct (SV Hr) as (l & A & B & C).
    exists [], l. rewrite app_nil_r. split; [reflexivity|]. split; [exact HW|]. split; [reflexivity|]. split; [exact A|]. split; assumption.
  - pose proof (mix_step_sent x w XHeader HI I HW) as H. cbn [mix_step is_save] in *. rewrite set_header_tables in *. destruct (Z_le_dec (len (x_meta x)) 163) as [HL|HL].
    + destruct (tables_ok x HM HL) as (k & s & a & b & ps & pa & pb & ba & bb & E & K & S1 & A1 & P1 & _ & _ & _ & _ & _ & V & A & C1 & C2). rewrite E in *. rewrite run_plan_ok in * by exact HW. intros Hr.
      destruct (H Hr) as (out & l & O1 & O2 & O3 & O4). exists out, l. split; [exact O1|]. split; [exact O2|]. split; [exact O3|]. split; [exact O4|]. split; [congruence|]. intros _.
      cbn [w_out] in O1. apply app_inv_head in O1. subst out. cbn [concat] in O3. rewrite app_nil_r in O3. replace (s ++ a ++ b) with (s ++ a ++ b ++ []) in O3 by (rewrite app_nil_r; reflexivity).
      erewrite read_stream_cons in O3; [|eapply read_packet_len, S1|exact S1|apply read_stream_cons; [eapply read_packet_len, A1|exact A1|apply read_stream_cons; [eapply read_packet_len, P1|exact P1|reflexivity]]].
      injection O3 as <-. reflexivity.
    + destruct (tables_panic x HM ltac:(lia)) as (k & E). rewrite E. cbn [bind]. intros X. congruence.
  - cbn [mix_step is_save]. unfold mix_update. assert (HN : forall x' r, x_muxer x' = x_muxer x -> r <> @Panic unit -> exists out l, w_out w = w_out w ++ out /\ never_fails w /\ read_stream out = Some l /\ msent (x_muxer x) (x_muxer x') l /\ made_by (XUpdate p a b) r l).
    { intros x' r E _. exists [], []. rewrite app_nil_r, E. split; [reflexivity|]. split; [exact HW|]. split; [reflexivity|]. split; [apply msent_nil, HM|]. split; reflexivity. }
    destruct (p_type p =? PktVideo); [apply HN; reflexivity|]. destruct (p_type p =? PktAudio); [|apply HN; reflexivity].
    destruct (codec_rate (x_codec x)); try (apply HN; reflexivity). destruct (sync_audio _ _ _) as [[s d]| | |]; apply HN; reflexivity.
Qed.
Lemma run_made os : forall x w, mix_inv x -> Forall no_writer_set os -> never_fails w ->
  let '(x', w', rs) := mix_run (x, w) os in
  ~ In Panic rs -> exists out made, w_out w' = w_out w ++ out /\ read_stream out = Some (sent_by os made) /\ msent (x_muxer x) (x_muxer x') (concat made) /\
    Forall2 (fun q l => made_by (fst q) (snd q) l) (combine os rs) made /\ length made = length os.
Proof.
  induction os as [|o os IH]; intros x w HI HQ HW; cbn [mix_run].
  - intros _. exists [], []. rewrite app_nil_r. split; [reflexivity|]. split; [reflexivity|]. split; [apply msent_nil, HI|]. split; [constructor|reflexivity].
  - inversion HQ as [|? ? Q1 Q2]; subst. pose proof (step_made x w o HI Q1 HW) as H1. pose proof (mix_step_inv x w o HI) as HI1. destruct (mix_step (x, w) o) as [[x1 w1] r]. cbn [fst] in HI1.
    specialize (IH x1 w1 HI1 Q2). destruct (mix_run (x1, w1) os) as [[x2 w2] rs]. intros HN. cbn [In] in HN.
    destruct H1 as (o1 & l1 & A1 & A2 & A3 & A4 & A5); [intros ->; tauto|].
    destruct (IH A2) as (o2 & made & B1 & B2 & B3 & B4 & B5); [tauto|].
    exists (o1 ++ o2), (l1 :: made). split; [rewrite B1, A1, app_assoc; reflexivity|]. split; [cbn [sent_by]; apply read_stream_app; assumption|].
    split; [cbn [concat]; eapply msent_app; eassumption|]. split; [cbn [combine]; constructor; assumption|]. cbn [length]. f_equal. exact B5.
Qed.
(** Any calls but SetWriter on a new Mixer: each makes certain packets, and what is sent are those of the calls other than
    SaveAVCHeader and SaveAACHeader, in order. The packets made have gap-free counters on every PID (starting with 1 on the
    elementary streams) except the SDT's, where all are 0; so the output has gaps exactly where a header was saved, and a
    sequence header is one packet. Failing calls make none. *)
Theorem C49_counters : forall os w x' w' rs, Forall no_writer_set os -> never_fails w -> mix_run (new_tsmix, w) os = (x', w', rs) -> ~ In Panic rs ->
  exists out made, w_out w' = w_out w ++ out /\ read_stream out = Some (sent_by os made) /\ length made = length os /\
    Forall2 (fun q l => made_by (fst q) (snd q) l) (combine os rs) made /\
    continuous 1 (on_pid 0x100 (concat made)) /\ continuous 1 (on_pid 0x101 (concat made)) /\
    continuous 0 (on_pid 0 (concat made)) /\ continuous 0 (on_pid 0x1001 (concat made)) /\
    Forall (fun q => ts_cc q = 0) (on_pid 0x11 (concat made)).
Proof.
  intros os w x' w' rs HQ HW E HN. pose proof (run_made os new_tsmix w new_mix_inv HQ HW) as H. rewrite E in H.
  destruct (H HN) as (out & made & A & B & [(S1 & _) (S2 & _) (S3 & _) (S4 & _) S5 _ _] & C & D). exists out, made.
  split; [exact A|]. split; [exact B|]. split; [exact D|]. split; [exact C|]. split; [exact S1|]. split; [exact S2|]. split; [exact S3|]. split; [exact S4|exact S5].
Qed.
Print Assumptions C49_counters.
(** Tables, headers saved between frames, a refused packet: the output lacks the counters of the saved headers. *)
Definition ex_vhdr : packet := mkP 0 0 0 0 (Some (mkH (Some (mkVH true false true false true 7 0)) None)) [] (Some ([1; 100; 0; 31; 255; 225; 0; 2; 103; 100; 1; 0; 2; 104; 238])).
Definition ex_inter_frame : packet := mkP 0 0 0 0 (Some (mkH (Some (mkVH false true false false true 7 0)) None)) [] (Some [0; 0; 0; 2; 65; 7]).
Definition ex_gap_ops : list mix_op := [XSaveAVC ex_vhdr; XHeader; XMux ex_inter_frame; XSaveAAC (ex_aac 0 [0x12; 0x10]); XMux (ex_aac 1 [1; 2]); XSaveAVC ex_vhdr; XMux ex_inter_frame; XMux (mkP 7 0 0 0 None [] None)].
Example C49_gap_example : let '(x, w, rs) := mix_run (new_tsmix, buffer0) ex_gap_ops in
  rs = [Ok tt; Ok tt; Ok tt; Ok tt; Ok tt; Ok tt; Ok tt; Err EOther] /\
  option_map (map (fun q => (ts_pid q, ts_cc q))) (read_stream (w_out w)) = Some [(0x11, 0); (0, 0); (0x1001, 0); (0x100, 2); (0x101, 2); (0x100, 4)] /\
  sequence_header ex_vhdr 0x100 /\ sequence_header (ex_aac 0 [0x12; 0x10]) 0x101.
Proof. vm_compute. repeat split; [left|right]; repeat split; eexists; repeat split. Qed.
