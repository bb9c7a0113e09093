(** Property C169: a viewer of a live relay who is sent MPEG-TS. *)
From Coq Require Import String.
From Verif Require Import Base.Go Base.GoFacts Base.IO Model.AmfTypes Model.Packet Model.Gop Model.GopPtr Model.Flv Model.Relay Model.Parsers Model.Ts
  Spec.Gop Spec.GopPtr Spec.Flv Spec.Relay Spec.Parsers Spec.Ts Proofs.Gop Proofs.GopPtr Proofs.Flv Proofs.Relay Props.Flv Props.Parsers Props.Fan Props.Serve Props.Relay Props.Remux Props.Recording Spec.Mixer.
Import ListNotations.
Local Open Scope list_scope.
Local Open Scope Z_scope.

(** ** The program *)
(** A packet.Writer for SendTo that makes a copy of the packet, demuxes it, and makes the calls of a remuxer with its time stamp, SetTsHeader
    before each key frame; it reports the first failure. *)
Definition key_frame (p : packet) : bool :=
  match demux p with
  | (q, Ok _) => match video_of q with Some v => (p_type q =? 0) && v_key v && negb (v_seq v) | None => false end
  | _ => false
  end.
Definition ts_calls (p : packet) : list mix_op := (if key_frame p then [XHeader] else []) ++ remux (p, p_ts p).
Definition first_failure (rs : list (res unit)) : res unit :=
  match find (fun r => match r with Ok _ => false | _ => true end) rs with Some r => r | None => Ok tt end.
Definition ts_viewer (packets : nat -> packet) : pointer_writer (tsmix * writer) := fun k s =>
  let '(s', rs) := mix_run s (ts_calls (packets k)) in (s', first_failure rs).
(** ** What it should be sent *)
Definition ts_events (ps : list packet) : list rec_event :=
  flat_map (fun p => (if has_kind BKey p then [Tables] else []) ++ [Body p (p_ts p)]) ps.

(** ** Proof *)
Lemma demux_same p q : p_type q = p_type p -> p_data q = p_data p -> p_ts q = p_ts p -> p_base q = p_base p -> p_stream q = p_stream p ->
  (forall u p', demux p = (p', Ok u) -> demux q = (p', Ok u)) /\ ((forall u p', demux p <> (p', Ok u)) -> forall u q', demux q <> (q', Ok u)).
Proof.
  intros T D S B R. unfold demux. rewrite T, D. destruct (parse_media_tag_header tag0 (p_data p) (p_type p)) as [t [n|e| |]]; try (split; intros; discriminate).
  destruct (len (p_data p) <? n); [split; intros; discriminate|]. split.
  - intros u p' E. injection E as <- <-. unfold set_demuxed. rewrite T, D, S, B, R. reflexivity.
  - intros H. destruct (H tt _ eq_refl).
Qed.
Lemma calls_same p q : p_type q = p_type p -> p_data q = p_data p -> p_ts q = p_ts p -> p_base q = p_base p -> p_stream q = p_stream p -> ts_calls q = ts_calls p.
Proof.
  intros T D S B R. destruct (demux_same p q T D S B R) as [H1 H2]. unfold ts_calls, key_frame, remux. cbn [fst snd]. rewrite S. destruct (demux p) as [p' [u|e| |]].
  - rewrite (H1 u p' eq_refl). reflexivity.
  - destruct (demux q) as [q' [u|f| |]]; try reflexivity. exfalso. eapply H2; [|reflexivity]. intros v p2 X. discriminate.
  - destruct (demux q) as [q' [u|f| |]]; try reflexivity. exfalso. eapply H2; [|reflexivity]. intros v p2 X. discriminate.
  - destruct (demux q) as [q' [u|f| |]]; try reflexivity. exfalso. eapply H2; [|reflexivity]. intros v p2 X. discriminate.
Qed.
Lemma calls_meta p : p_type p = 2 -> ts_calls p = [].
Proof.
  intros T. unfold ts_calls, key_frame, remux. cbn [fst snd]. assert (Q : p_type (fst (demux p)) = 2).
  { unfold demux. destruct (parse_media_tag_header tag0 (p_data p) (p_type p)) as [t [n|e| |]]; try exact T. destruct (len (p_data p) <? n); exact T. }
  destruct (demux p) as [q [u|e| |]]; try reflexivity. cbn [fst] in Q. rewrite Q. change (2 =? 0) with false. change (2 =? 1) with false. cbn [andb]. destruct (video_of q); destruct (p_header q) as [[[v1|] [a1|]]|]; reflexivity.
Qed.
Lemma calls_events p : is_bytes (p_data p) -> ts_calls p = recorder (ts_events [p]).
Proof.
  intros HB. unfold ts_calls, ts_events. cbn [flat_map]. rewrite app_nil_r. assert (K : key_frame p = has_kind BKey p).
  { unfold key_frame. pose proof (C04_demux_exact p HB) as H. destruct (demux p) as [q [u|e| |]] eqn:ED; try contradiction.
    - destruct (demux_kind p q u HB ED) as (x & K1 & K2). change BKey with (body_of KKey). rewrite (has_kind_body x KKey p K2). destruct H as (v & a & m & _ & ->). unfold kind_of, kind_video, video_of in *. cbn [p_type p_header h_video] in *.
      destruct (p_type p =? 0); [|destruct (p_type p =? 1); [unfold kind_audio in K1; cbn [p_header] in K1; injection K1 as <-; destruct (a_aac a && a_seq a); reflexivity|injection K1 as <-; destruct (p_type p =? 2); reflexivity]].
      injection K1 as <-. destruct (v_seq v), (v_key v), (v_inter v); reflexivity.
    - symmetry. apply (has_other KKey); [eapply no_demux_kind; eassumption|discriminate]. }
  rewrite K. destruct (has_kind BKey p); cbn [app recorder flat_map]; rewrite app_nil_r; reflexivity.
Qed.
Lemma all_fine rs : Forall (fun r => r = Ok tt) rs -> first_failure rs = Ok tt.
Proof. unfold first_failure. induction 1 as [|r rs -> _ IH]; [reflexivity|exact IH]. Qed.
Lemma viewer_runs packets (B : nat -> packet) ks : (forall k, In k ks -> ts_calls (packets k) = recorder (ts_events [B k])) -> forall s s' rs, mix_run s (recorder (ts_events (map B ks))) = (s', rs) ->
  Forall (fun r => r = Ok tt) rs -> call_each (ts_viewer packets) ks s = (s', Ok tt).
Proof.
  induction ks as [|k ks IH]; intros HK s s' rs E HF; cbn [map] in E; [cbn in E; injection E as <- <-; reflexivity|].
  assert (EE : recorder (ts_events (B k :: map B ks)) = recorder (ts_events [B k]) ++ recorder (ts_events (map B ks))).
  { unfold ts_events, recorder. cbn [flat_map]. rewrite flat_map_app, app_nil_r. reflexivity. }
  rewrite EE, mix_run_app in E. cbn [call_each]. unfold ts_viewer at 1. rewrite (HK k (or_introl eq_refl)). destruct (mix_run s (recorder (ts_events [B k]))) as [s1 r1]. destruct (mix_run s1 (recorder (ts_events (map B ks)))) as [s2 r2] eqn:E2.
  injection E as <- <-. apply Forall_app in HF. destruct HF as [F1 F2]. rewrite (all_fine r1 F1). eapply IH; [intros j Hj; apply HK; right; exact Hj|exact E2|exact F2].
Qed.

(** ** C169 *)
(** After anything published to the relay and any FLV viewers: if what a viewer needs is a stream as in C168, then a new TS Mixer is sent it
    without a failure, and the player finds every access unit of it. *)
Theorem C169_ts_viewer : forall n c0 s0 es c s rs V A w0, new_cache_of n = Ok c0 -> Forall publishable (published es) ->
  gop_run_ptr fs_packets c0 s0 (relay 0 0 es) = (c, (s, rs)) ->
  live None None (ts_events (to_viewer (Z.to_nat n) (published es))) V A -> never_fails w0 ->
  exists x w out vs aus, cache_send_to (ts_viewer (fs_packets s)) c (new_tsmix, w0) = ((x, w), Ok tt) /\ w_out w = w_out w0 ++ out /\
    demultiplex 0x100 out = Some vs /\ demultiplex 0x101 out = Some aus /\ Forall2 shows_unit V vs /\ Forall2 shows_frame A aus.
Proof.
  intros n c0 s0 es c s rs V A w0 Hc HP HR HL HW. set (N := Z.to_nat n) in *.
  destruct (sim_run fs_packets _ (relay 0 0 es) c0 [] s0 (sim_new _ _ Hc)) as [E1 E2]. rewrite HR in E1, E2. cbn [fst snd] in E1, E2. fold N in E1, E2.
  set (B := fun k => nth k (published es) (mkP 0 0 0 0 None [] None)).
  assert (HB : forall k, (k < length (published es))%nat -> B k = nth k (published es) (B k)) by (intros k Hk; apply nth_indep, Hk).
  pose proof (inv_run N B (fs_mixers s0) es HB HP s0 eq_refl) as I. cbv zeta in I.
  destruct (spec_run fs_packets N [] s0 (relay 0 0 es)) as [h [s1 rs1]]. cbn [fst snd] in *. injection E1 as <- <-.
  pose proof (replay_bodies _ _ _ _ _ _ _ I) as RB. rewrite <- RB in HL.
  destruct (iv_packets _ _ _ _ _ _ _ I) as (h0 & M & E0). pose proof (iv_known _ _ _ _ _ _ _ I) as KN. rewrite Forall_forall in KN.
  assert (HK : forall k, In k (pointer_replay N h) -> ts_calls (fs_packets s k) = recorder (ts_events [B k])).
  { intros k Hk. apply in_replay in Hk. apply in_map_iff in Hk. destruct Hk as (j & <- & Hj). specialize (KN j Hj). set (k := snd j) in *.
    assert (PB : publishable (B k)) by (rewrite Forall_forall in HP; apply HP; rewrite (HB k KN); apply nth_In, KN). destruct PB as (BY & _ & _).
    rewrite <- calls_events by exact BY. specialize (E0 k KN).
    assert (K0 : p_type (h0 k) = p_type (B k) /\ p_data (h0 k) = p_data (B k) /\ p_ts (h0 k) = p_ts (B k) /\ p_base (h0 k) = p_base (B k) /\ p_stream (h0 k) = p_stream (B k)).
    { rewrite E0. pose proof (C04_demux_exact (B k) BY) as D. destruct (demux (B k)) as [q [u|e| |]]; cbn [fst]; try contradiction; [destruct D as (v & a & m & _ & ->)|destruct D as [-> _]]; auto 10. }
    destruct K0 as (K1 & K2 & K3 & K4 & K5). destruct (M k) as [->|(ty & d & MS & ->)]; [apply calls_same; assumption|].
    destruct (Z.eq_dec (p_type (B k)) 2) as [T|T].
    - rewrite (calls_meta (B k) T). apply calls_meta. cbn [set_data p_type]. congruence.
    - assert (d = p_data (h0 k)) as -> by (eapply select_media; [|exact MS]; rewrite K1; exact T). apply calls_same; assumption. }
  destruct (mix_run (new_tsmix, w0) (recorder (ts_events (map B (pointer_replay N h))))) as [[x w] rs2] eqn:ER.
  destruct (C168_recording_read_back _ _ _ _ _ _ _ HL HW ER) as (F & out & vs & aus & A1 & A2 & A3 & A4 & A5).
  exists x, w, out, vs, aus. split; [rewrite (sim_send _ _ _ (ts_viewer (fs_packets s)) (new_tsmix, w0) E2); eapply viewer_runs; eassumption|]. auto.
Qed.
Print Assumptions C169_ts_viewer.
(** Metadata, both configurations, a group, an FLV viewer, a key frame and an inter frame: the TS viewer gets the second group. *)
Definition ex_nal (b : Z) : bytes := b :: repeat 1 (Z.to_nat 200).
Definition ex_pub (ts : Z) (p : packet) : relay_event := Publish (mkP (p_type p) ts 0 0 None (p_data p) None).
Definition ex_relay : list relay_event :=
  [Publish ex_meta; ex_pub 0 (fst ex_cfg); ex_pub 0 (fst ex_aac_cfg); ex_pub 0 (ex_unit true 0 (ex_nal 0x65)); ex_pub 23 (body 1 [0xaf; 1; 7; 7]); View;
   ex_pub 40 (ex_unit true 0 (ex_nal 0x65)); ex_pub 80 (ex_unit false 40 (ex_nal 0x41))].
Lemma ex_relay_publishable : Forall publishable (published ex_relay).
Proof.
  assert (M : forall ty ts d, (ty = 0 \/ ty = 1) -> forallb (fun b => (0 <=? b) && (b <? 256)) d = true -> len d < 16777216 -> 0 <= ts < 4294967296 -> publishable (mkP ty ts 0 0 None d None)).
  { intros ty ts d T HB L S. split; [apply bytes_dec, HB|]. split; [exact S|]. intros _. exists d. split; [|exact L]. apply (TC_media (mkP ty ts 0 0 None d None)). exact T. }
  apply Forall_cons; [|cbn [published ex_relay flat_map app ex_pub]; repeat (apply Forall_cons; [apply M; [vm_compute; auto|vm_compute; reflexivity|vm_compute; reflexivity|lia]|]); constructor].
  pose proof ex_late_publishable as H. rewrite Forall_forall in H. apply H. right. left. reflexivity.
Qed.
Lemma ex_relay_live : live None None (ts_events (to_viewer 1 (published ex_relay)))
  [mkAU 3600 3600 (delimiter ++ annexb [ex_sps; ex_pps] ++ annexb [ex_nal 0x65]); mkAU 10800 7200 (delimiter ++ annexb [ex_nal 0x41])] [].
Proof.
  assert (E : ts_events (to_viewer 1 (published ex_relay)) =
    [Body ex_meta 0; Body (fst ex_cfg) 0; Body (fst ex_aac_cfg) 0; Tables; Body (mkP 0 40 0 0 None (p_data (ex_unit true 0 (ex_nal 0x65))) None) 40; Body (mkP 0 80 0 0 None (p_data (ex_unit false 40 (ex_nal 0x41))) None) 80]) by (vm_compute; reflexivity).
  rewrite E. clear E.
  apply Lv_other; [discriminate|discriminate|apply bytes_dec; reflexivity|].
  eapply Lv_avc_config with (r := ex_header ex_sps ex_pps []) (sps := ex_sps) (pps := ex_pps) (ext := []); [apply bytes_dec; reflexivity|split; [reflexivity|]; exists 0x17, 0, 0, 0; unfold byte; repeat (split; [lia|]); reflexivity|apply Hd_record; unfold len; cbn; lia|].
  eapply Lv_aac_config with (c0 := 0x12) (c1 := 0x10) (more := []); [apply bytes_dec; reflexivity|split; [reflexivity|]; exists 0xaf; unfold byte; repeat (split; [lia|]); reflexivity|reflexivity|lia|lia|lia|].
  apply Lv_tables.
  change (mkAU 3600 3600) with (mkAU (90 * (40 + 0)) (90 * 40)). eapply Lv_video with (key := true) (nals := [ex_nal 0x65]).
  { apply bytes_dec. vm_compute. reflexivity. } { split; [reflexivity|]. exists 0x17. unfold byte. change (2 ^ 24) with 16777216. repeat (split; [lia|]). reflexivity. } { discriminate. }
  { constructor; [|constructor]. split; [discriminate|]. split; [apply bytes_dec; vm_compute; reflexivity|vm_compute; reflexivity]. } { repeat constructor. } { intros n ns E. injection E as <- _. vm_compute. discriminate. } { lia. }
  { apply (Cv_idr _ [] (ex_nal 0x65) []); [intros n []|reflexivity]. } { intros _. vm_compute. discriminate. }
  change (mkAU 10800 7200) with (mkAU (90 * (80 + 40)) (90 * 80)). eapply Lv_video with (key := false) (nals := [ex_nal 0x41]).
  { apply bytes_dec. vm_compute. reflexivity. } { split; [reflexivity|]. exists 0x27. unfold byte. change (2 ^ 24) with 16777216. repeat (split; [lia|]). reflexivity. } { discriminate. }
  { constructor; [|constructor]. split; [discriminate|]. split; [apply bytes_dec; vm_compute; reflexivity|vm_compute; reflexivity]. } { repeat constructor. } { intros n ns E. injection E as <- _. vm_compute. discriminate. } { lia. }
  { apply Cv_no_idr. intros n [<-|[]]. reflexivity. } { discriminate. }
  apply Lv_end.
Qed.
Example C169_example : match new_cache_of 1 with
  | Ok c0 => let '(c, (s, rs)) := gop_run_ptr fs_packets c0 (mkFS (fun _ => ex_meta) (fun _ => (new_mixer, buffer0))) (relay 0 0 ex_relay) in
      let '(_, w, r) := cache_send_to (ts_viewer (fs_packets s)) c (new_tsmix, buffer0) in
      p_data (fs_packets s 0) <> p_data ex_meta /\ r = Ok tt /\ len (w_out w) = 188 * 7 /\
      option_map (map (fun e => option_map snd (pes_pts e))) (demultiplex 0x100 (w_out w)) = Some [Some 3600; Some 10800]
  | _ => False
  end.
Proof. vm_compute. repeat split. discriminate. Qed.
