(** Property C207: which frames an AAC decoder finds in what is written. *)
From Coq Require Import String.
From Verif Require Import Base.Go Base.GoFacts Base.IO Proofs.IOFacts Model.AmfTypes Model.Packet Model.Flv Model.Parsers Model.Ts
  Spec.Flv Spec.Parsers Spec.H264 Spec.Ts Proofs.Parsers Proofs.TsPackets Proofs.TsMore Props.Flv Props.Parsers Props.H264 Props.Ts Props.TsMixer Props.Remux Spec.Mixer Props.Recording Spec.AdtsStream.
Import ListNotations.
Local Open Scope list_scope.
Local Open Scope Z_scope.

(** A written frame: what C15 and C168 say of it. *)
Definition frame_in (f : Z * Z * Z * bytes) (s : bytes) : Prop :=
  let '(o, i, c, raw) := f in read_adts s = Some (mkAdts 4095 0 0 1 (o - 1) i 0 c 0 0 0 0 (7 + len raw) 2047 0, raw).
Lemma read_adts_app s h rest more : read_adts s = Some (h, rest) -> read_adts (s ++ more) = Some (h, rest ++ more) /\ (length s = 7 + length rest)%nat.
Proof.
  destruct s as [|a [|b [|c [|d [|e [|f [|g s]]]]]]]; try discriminate. cbn [read_adts app]. intros H. injection H as <- <-. split; [reflexivity|]. cbn [length]. lia.
Qed.
Lemma frames_read fs ss : Forall2 frame_in fs ss -> forall fuel, (length (concat ss) <= fuel)%nat -> read_frames fuel (concat ss) = Some fs.
Proof.
  induction 1 as [|[[[o i] c] raw] s fs ss H _ IH]; intros fuel L; [destruct fuel; reflexivity|]. cbn [concat] in *. unfold frame_in in H. destruct (read_adts_app _ _ _ (concat ss) H) as [E EL]. rewrite app_length in L.
  destruct fuel as [|fuel]; [lia|]. destruct (s ++ concat ss) as [|x y] eqn:ES; [apply (f_equal (@length Z)) in ES; rewrite app_length in ES; cbn [length] in ES; lia|]. rewrite <- ES in *. 
  assert (G : read_frames (S fuel) (s ++ concat ss) = match read_adts (s ++ concat ss) with None => None | Some (h, rest) => let n := ad_length h - 7 in
      if (ad_sync h =? 4095) && (ad_layer h =? 0) && (ad_noprot h =? 1) && (ad_blocks h =? 0) && (0 <=? n) && (n <=? len rest)
      then match read_frames fuel (drop rest n) with Some fs => Some ((ad_profile h + 1, ad_rate h, ad_chan h, take rest n) :: fs) | None => None end else None end) by (rewrite ES; reflexivity).
  rewrite G, E. cbn [ad_sync ad_layer ad_noprot ad_blocks ad_length ad_profile ad_rate ad_chan]. cbv zeta. replace (7 + len raw - 7) with (len raw) by lia. pose proof (len_nonneg raw). pose proof (len_nonneg (concat ss)).
  rewrite len_app. replace (0 <=? len raw) with true by lia. replace (len raw <=? len raw + len (concat ss)) with true by lia. cbn [Z.eqb Pos.eqb andb].
  rewrite drop_app, take_app. rewrite IH by lia. do 5 f_equal. lia.
Qed.

(** The AAC parser: all packets are accepted, and one decoder that is given everything that is written gets the frames. *)
Theorem C207_parser : forall ops fs, Forall (fun o => never_fails (snd o)) ops -> aac_published None (map fst ops) fs ->
  exists outs, Forall2 (fun out (x : (bytes * Z * writer) * (writer * res unit)) => w_out (fst (snd x)) = w_out (snd (fst x)) ++ out /\ snd (snd x) = Ok tt)
    outs (combine ops (snd (aac_run new_aac ops))) /\ read_adts_stream (concat outs) = Some fs.
Proof.
  assert (G : forall cfg ps fs, aac_published cfg ps fs -> forall ops, ps = map fst ops -> Forall (fun o : bytes * Z * writer => never_fails (snd o)) ops ->
    forall before, match cfg with None => True | Some (o, i, c) => 1 <= o <= 4 /\ i <= 12 /\ c <= 7 /\
        exists h b0 b1 more w0 h2, before = h ++ (b0 :: b1 :: more, 0, w0) :: h2 /\ byte b0 /\ byte b1 /\ Forall no_config h2 /\ config_bits b0 b1 = (o, i, c) end ->
    exists outs ss, Forall2 (fun out (x : (bytes * Z * writer) * (writer * res unit)) => w_out (fst (snd x)) = w_out (snd (fst x)) ++ out /\ snd (snd x) = Ok tt)
      outs (combine ops (snd (aac_run (fst (aac_run new_aac before)) ops))) /\ concat outs = concat ss /\ Forall2 frame_in fs ss).
  { induction 1 as [cfg|cfg b0 b1 more o i c ps fs B0 B1 HC Ho Hi Hc HP IH|o i c raw ps fs HL HP IH]; intros ops E HF before HB.
    - destruct ops; [|discriminate E]. exists [], []. repeat split; constructor.
    - destruct ops as [|[[b t] w] ops]; [discriminate E|]. cbn [map fst] in E. injection E as <- <- E. inversion HF as [|? ? HW HF']; subst.
      destruct (IH ops eq_refl HF' (before ++ [(b0 :: b1 :: more, 0, w)])) as (outs & ss & H1 & H2 & H3).
      { split; [exact Ho|]. split; [exact Hi|]. split; [exact Hc|]. exists before, b0, b1, more, w, []. repeat split; try assumption; try apply B0; try apply B1. constructor. }
      assert (EP : aac_parse (fst (aac_run new_aac before)) (b0 :: b1 :: more) 0 w = (mkAac true o i c, (w, Ok tt))).
      { pose proof (specific_info_eq (fst (aac_run new_aac before)) b0 b1 more B0 B1) as H. rewrite HC in H. destruct H as (X & _). unfold aac_parse. rewrite !len_cons. pose proof (len_nonneg more).
        replace (1 + (1 + len more) =? 0) with false by lia. change (0 =? 0) with true. cbv iota. rewrite X. replace (i =? 15) with false by lia. reflexivity. }
      assert (EB : fst (aac_run new_aac (before ++ [(b0 :: b1 :: more, 0, w)])) = mkAac true o i c).
      { rewrite aac_run_app. destruct (aac_run new_aac before) as [p1 r1]. cbn [fst] in EP. cbn [aac_run]. rewrite EP. reflexivity. }
      rewrite EB in H1. exists ([] :: outs), ss. split; [|split; [exact H2|exact H3]]. cbn [aac_run]. rewrite EP. destruct (aac_run (mkAac true o i c) ops) as [p2 rs]. cbn [snd combine] in *. constructor; [cbn [fst snd]; rewrite app_nil_r; split; reflexivity|exact H1].
    - destruct ops as [|[[b t] w] ops]; [discriminate E|]. cbn [map fst] in E. injection E as <- <- E. inversion HF as [|? ? HW HF']; subst. cbn [snd] in HW.
      destruct HB as (Ho & Hi & Hc & h & b0 & b1 & more & w0 & h2 & -> & B0 & B1 & HN & HC).
      destruct (C15_adts_header h b0 b1 more w0 h2 o i c raw w B0 B1 HN HC Ho Hi Hc HL HW) as (header & w' & EP & EO & EL & ER).
      destruct (IH ops eq_refl HF' ((h ++ (b0 :: b1 :: more, 0, w0) :: h2) ++ [(raw, 1, w)])) as (outs & ss & H1 & H2 & H3).
      { split; [exact Ho|]. split; [exact Hi|]. split; [exact Hc|]. exists h, b0, b1, more, w0, (h2 ++ [(raw, 1, w)]). split; [rewrite <- app_assoc; reflexivity|]. split; [exact B0|]. split; [exact B1|]. split; [|exact HC].
        apply Forall_app. split; [exact HN|]. constructor; [left; cbn [fst snd]; lia|constructor]. }
      set (p := fst (aac_run new_aac (h ++ (b0 :: b1 :: more, 0, w0) :: h2))) in *.
      assert (EB : fst (aac_run new_aac ((h ++ (b0 :: b1 :: more, 0, w0) :: h2) ++ [(raw, 1, w)])) = p).
      { rewrite aac_run_app. unfold p in *. destruct (aac_run new_aac (h ++ (b0 :: b1 :: more, 0, w0) :: h2)) as [p1 r1]. cbn [fst] in EP |- *. cbn [aac_run]. rewrite EP. reflexivity. }
      rewrite EB in H1. exists ((header ++ raw) :: outs), ((header ++ raw) :: ss). split; [|split].
      + cbn [aac_run]. rewrite EP. destruct (aac_run p ops) as [p2 rs]. cbn [snd combine] in *. constructor; [cbn [fst snd]; split; [exact EO|reflexivity]|exact H1].
      + cbn [concat]. rewrite H2. reflexivity.
      + constructor; [exact ER|exact H3]. }
  intros ops fs HF H. destruct (G None (map fst ops) fs H ops eq_refl HF [] I) as (outs & ss & H1 & H2 & H3). exists outs. split; [exact H1|]. unfold read_adts_stream. rewrite H2. apply frames_read; [exact H3|lia].
Qed.
Print Assumptions C207_parser.

(** A recording: the payloads of the audio PID, one behind the other, are what the decoder is given. It gets the published frames,
    each with the configuration it was published under. *)
Theorem C207_recording : forall es V A w0 x w rs, live None None es V A -> never_fails w0 -> mix_run (new_tsmix, w0) (recorder es) = (x, w, rs) ->
  exists out aus, w_out w = w_out w0 ++ out /\ demultiplex 0x101 out = Some aus /\ read_adts_stream (concat (map pes_payload aus)) = Some (map (fun f => (af_config f, af_raw f)) A).
Proof.
  intros es V A w0 x w rs HL HW E. destruct (C168_recording_read_back _ _ _ _ _ _ _ HL HW E) as (_ & out & vs & aus & B1 & _ & B3 & _ & B5).
  exists out, aus. split; [exact B1|]. split; [exact B3|]. apply frames_read; [|lia]. clear - B5. induction B5 as [|f e A aus H _ IH]; cbn [map]; constructor; [|exact IH].
  unfold shows_frame in H. unfold frame_in. destruct (af_config f) as [[o i] c]. apply H.
Qed.
Print Assumptions C207_recording.
(** The recording of C168, and a stream that changes its configuration. *)
Example C207_example : (exists V, live None None ex_live V [mkAF 41 (2, 4, 2) [7; 7]]) /\
  aac_published None [([0x12; 0x10], 0); ([7; 7], 1); ([0x11; 0x90], 0); ([0xff; 0xf1; 3], 1)] [(2, 4, 2, [7; 7]); (2, 3, 2, [0xff; 0xf1; 3])].
Proof.
  split.
  - pose proof ex_live_ok as H. eexists. exact H.
  - eapply (Ap_config _ 0x12 0x10 [] 2 4 2); try (vm_compute; split; congruence); try reflexivity; try lia. apply Ap_frame; [vm_compute; split; congruence|].
    eapply (Ap_config _ 0x11 0x90 [] 2 3 2); try (vm_compute; split; congruence); try reflexivity; try lia. apply Ap_frame; [vm_compute; split; congruence|]. apply Ap_end.
Qed.
