(** Property C203: which units an H.264 decoder finds in what is written. *)
From Coq Require Import String.
From Verif Require Import Base.Go Base.GoFacts Base.IO Proofs.IOFacts Model.AmfTypes Model.Packet Model.Flv Model.Parsers Model.Ts
  Spec.Flv Spec.Parsers Spec.H264 Spec.Ts Proofs.Parsers Proofs.TsPackets Proofs.TsMore Props.Flv Props.Parsers Props.H264 Props.Ts Props.TsMixer Props.Remux Spec.Mixer Props.Recording Spec.AnnexB Proofs.AnnexB.
Import ListNotations.
Local Open Scope list_scope.
Local Open Scope Z_scope.

(** The H.264 parser: all packets are accepted, and one decoder that is given everything that is written gets the units. *)
Theorem C203_parser : forall ops us, Forall (fun o => is_bytes (fst (fst o)) /\ never_fails (snd o)) ops -> unit_stream [] (map fst ops) us ->
  exists outs, Forall2 (fun out (x : (bytes * bool * writer) * (writer * res unit)) => w_out (fst (snd x)) = w_out (snd (fst x)) ++ out /\ snd (snd x) = Ok tt)
    outs (combine ops (snd (h264_run new_h264 ops))) /\ read_units (concat outs) = Some us.
Proof.
  intros ops us HF H. destruct (stream_converts _ _ _ H) as (outs & A & B & C). pose proof (C173_stream_converted ops outs HF A) as D.
  exists (map fst outs). split.
  - clear - B D. revert B. induction D as [|o x outs l [D1 D2] _ IH]; intros B; [constructor|]. inversion B as [|? ? B1 B2]; subst. cbn [map]. constructor; [|auto]. rewrite B1 in D2. auto.
  - rewrite C. apply read_annexb; [exact (stream_legal _ _ _ H (Forall_nil _))|lia].
Qed.
Print Assumptions C203_parser.

(** The packets for the H.264 parser in the FLV video bodies of a stream. *)
Definition video_packets (es : list rec_event) : list (bytes * bool) :=
  flat_map (fun e => match e with Body p _ => if p_type p =? 0 then match p_data p with _ :: ty :: _ :: _ :: _ :: rest => [(rest, ty =? 0)] | _ => [] end else [] | Tables => [] end) es.
Lemma live_units sets cfg es V A : live sets cfg es V A -> forall l us, match sets with Some c => c | None => [] end = annexb l -> unit_stream l (video_packets es) us ->
  concat (map au_bytes V) = annexb us.
Proof.
  induction 1 as [sets cfg|sets cfg es V A _ IH|sets cfg p ms es V A H0 H1 HB _ IH|sets cfg p ms r sps pps ext es V A HB HC HH _ IH|sets cfg p ms c0 c1 more ot i ch es V A HB HC HG X1 X2 X3 _ IH
    |sets cfg p ms key cts nals bs es V A HB HU Hne HG HS H1 Hms HCv HK _ IH|sets cfg p ms raw es V A HB HR HL Hms _ IH]; intros l us El HUs.
  - inversion HUs. reflexivity.
  - exact (IH _ _ El HUs).
  - apply (IH l); [exact El|]. cbn [video_packets flat_map] in HUs. replace (p_type p =? 0) with false in HUs by lia. exact HUs.
  - destruct HC as (T & b0 & a & b & c & _ & _ & _ & _ & _ & _ & ED). cbn [video_packets flat_map] in HUs. rewrite T, ED in HUs. change (0 =? 0) with true in HUs. cbn [app] in HUs.
    inversion HUs as [|? ? sps' pps' ext' ? ? HH' L1 L2 HUs' E1 E2|]; subst. eapply IH; [|exact HUs']. rewrite El.
    pose proof (psi_record (mkH264 [] []) _ _ _ _ HH) as P1. pose proof (psi_record (mkH264 [] []) _ _ _ _ HH') as P2. rewrite P1 in P2. apply (f_equal (fun x => h_info (fst x))) in P2. cbn [fst h_info] in P2. rewrite !app_nil_l in P2.
    rewrite <- annexb_header. f_equal. exact P2.
  - destruct HC as (T & _). apply (IH l); [exact El|]. cbn [video_packets flat_map] in HUs. rewrite T in HUs. exact HUs.
  - destruct HU as (T & b0 & _ & _ & _ & _ & ED). cbn [video_packets flat_map] in HUs. rewrite T, ED in HUs. change (0 =? 0) with true in HUs. cbn [be24 app] in HUs. change (1 =? 0) with false in HUs.
    inversion HUs as [| |? nals' ? us' Hne' HG' HS' H1' HL' HUs' E1 E2]; subst.
    destruct (split_unique nals' nals [] [] HG' HS' HG HS (or_introl eq_refl) (or_introl eq_refl)) as [-> _]; [rewrite !app_nil_r; assumption|].
    cbn [map concat au_bytes]. rewrite (IH l us' eq_refl HUs'). rewrite (converts_picture _ _ _ HCv).
    change (aud :: picture l [] nals ++ us') with ((aud :: picture l [] nals) ++ us'). rewrite annexb_app. reflexivity.
  - destruct HR as (T & _). apply (IH l); [exact El|]. cbn [video_packets flat_map] in HUs. rewrite T in HUs. exact HUs.
Qed.
(** A recording: the payloads of the video PID, one behind the other, are what the decoder is given. *)
Theorem C203_recording : forall es V A us w0 x w rs, live None None es V A -> unit_stream [] (video_packets es) us -> never_fails w0 -> mix_run (new_tsmix, w0) (recorder es) = (x, w, rs) ->
  exists out vs, w_out w = w_out w0 ++ out /\ demultiplex 0x100 out = Some vs /\ read_units (concat (map pes_payload vs)) = Some us.
Proof.
  intros es V A us w0 x w rs HL HU HW E. destruct (C168_recording_read_back _ _ _ _ _ _ _ HL HW E) as (_ & out & vs & aus & B1 & B2 & _ & B4 & _).
  exists out, vs. split; [exact B1|]. split; [exact B2|]. 
  assert (EQ : map pes_payload vs = map au_bytes V). { clear - B4. induction B4 as [|u e V vs (_ & _ & _ & H) _ IH]; [reflexivity|]. cbn [map]. rewrite H, IH. reflexivity. }
  rewrite EQ, (live_units _ _ _ _ _ HL [] us eq_refl HU). apply read_annexb; [exact (stream_legal _ _ _ HU (Forall_nil _))|lia].
Qed.
Print Assumptions C203_recording.
(** The recording of C168: two access units, the first with the parameter sets. *)
Lemma legal_bytes n : n <> [] -> Forall (fun b => b <> 0) n -> legal_unit n.
Proof.
  intros Hn HF. rewrite Forall_forall in HF. split; [exact Hn|]. split; [intros a ->; apply (HF 0); [apply in_app_iff; right; left; reflexivity|reflexivity]|].
  intros a b. split; intros ->; apply (HF 0); try reflexivity; apply in_app_iff; right; left; reflexivity.
Qed.
Example C203_example : exists V A us, live None None ex_live V A /\ unit_stream [] (video_packets ex_live) us /\ us = [aud; ex_sps; ex_pps; ex_idr168; aud; ex_slice].
Proof.
  eexists _, _. cut (exists us, unit_stream [] (video_packets ex_live) us /\ us = [aud; ex_sps; ex_pps; ex_idr168; aud; ex_slice]); [intros (us & H1 & H2); exists us; split; [exact ex_live_ok|auto]|].
  eexists. split.
  { change (video_packets ex_live) with [(ex_header ex_sps ex_pps [], true); (avcc [ex_idr168], false); (avcc [ex_slice], false)].
  assert (LG : forall n, n <> [] -> forallb (fun b => negb (b =? 0)) n = true -> legal_unit n).
  { intros n Hn Hb. apply legal_bytes; [exact Hn|]. rewrite forallb_forall in Hb. rewrite Forall_forall. intros b HIn ->. specialize (Hb 0 HIn). discriminate Hb. }
  eapply Us_header with (sps := ex_sps) (pps := ex_pps) (ext := []); [apply Hd_record; vm_compute; split; congruence|apply LG; [discriminate|reflexivity]|apply LG; [discriminate|reflexivity]|].
  assert (G : forall n, n <> [] -> forallb (fun b => (0 <=? b) && (b <? 256)) n = true -> (len n <? 2 ^ 32) = true -> good_nal n).
  { intros n Hn Hb Hl. split; [exact Hn|]. split; [apply bytes_dec; exact Hb|lia]. }
  apply (Us_picture _ [ex_idr168]); [discriminate|constructor; [apply G; [discriminate|vm_compute; reflexivity|vm_compute; reflexivity]|constructor]|repeat constructor|intros n ns X; injection X as <- _; vm_compute; discriminate|constructor; [apply LG; [discriminate|vm_compute; reflexivity]|constructor]|].
  apply (Us_picture _ [ex_slice]); [discriminate|constructor; [apply G; [discriminate|vm_compute; reflexivity|vm_compute; reflexivity]|constructor]|repeat constructor|intros n ns X; injection X as <- _; vm_compute; discriminate|constructor; [apply LG; [discriminate|vm_compute; reflexivity]|constructor]|].
  constructor. }
  vm_compute. reflexivity.
Qed.
