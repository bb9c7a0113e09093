(** Property C197: what an FLV Tag reports after any history of parsed bodies. *)
From Verif Require Import Base.Go Base.GoFacts Base.IO Model.AmfTypes Model.Packet Model.Flv Spec.FlvTag Proofs.Flv Proofs.FlvTag.
Local Ltac Zify.zify_post_hook ::= Z.div_mod_to_equations.

(** A new Tag after ParseMediaTagHeader was called with each of these media types and bodies. *)
Definition used (h : list call) : tag := fold_left (fun t c => fst (parse_media_tag_header t (snd c) (fst c))) h tag0.
Definition of_bytes (h : list call) : Prop := Forall (fun c : call => is_bytes (snd c)) h.

(** The audio accessors: the sound format is that of the latest audio body of two bytes or more, also if it was
    refused; the AAC packet type is that of the latest AAC body, whatever came after it. *)
Theorem C197_audio : forall h la lc, of_bytes h -> last_such audio_body h la -> last_such aac_body h lc ->
  let format := of_last first_byte la / 16 in let kind := of_last second_byte lc in
  tag_audio (used h) = mkAH format kind (format =? 10) (format =? 2) (kind =? 0).
Proof.
  intros h la lc HB Ha Hc format kind. destruct (such_exists _ video_dec h) as [lv Hv]. destruct (two_exists _ timed_dec h) as (lt & lp & Ht).
  destruct (state_run h HB _ _ _ _ _ Hv Ha Hc Ht) as (E1 & E2 & _). unfold tag_audio. change (used h) with (fold_left step h tag0).
  rewrite E1, E2. reflexivity.
Qed.
Print Assumptions C197_audio.

(** The video accessors: frame type and codec are those of the latest video body of five bytes or more. The
    packet type is that of the latest key or inter frame, and the composition time, if that is a NALU, is the 24
    bits of that frame with the last byte of the composition time of the key or inter frame before it above
    them, as a signed number. *)
Theorem C197_video : forall h lv lt lp, of_bytes h -> last_such video_body h lv -> last_two timed_body h lt lp ->
  let frame := of_last first_byte lv / 16 in let codec := of_last first_byte lv mod 16 in let kind := of_last second_byte lt in
  tag_video (used h) = mkVH (frame =? 1) (frame =? 2) ((frame =? 1) && (kind =? 0)) ((frame =? 1) && (kind =? 2)) (codec =? 7) codec
    (if kind =? 1 then held_time lt lp else 0).
Proof.
  intros h lv lt lp HB Hv Ht frame codec kind. destruct (such_exists _ audio_dec h) as [la Ha]. destruct (such_exists _ aac_dec h) as [lc Hc].
  destruct (state_run h HB _ _ _ _ _ Hv Ha Hc Ht) as (_ & _ & E3 & E4 & E5 & E6). unfold tag_video. change (used h) with (fold_left step h tag0).
  rewrite E3, E4, E5, E6. reflexivity.
Qed.
Print Assumptions C197_video.

(** Every history has such latest bodies, or none, and only one choice of them. *)
Theorem C197_latest : forall h, exists lv la lc lt lp, last_such video_body h lv /\ last_such audio_body h la /\
  last_such aac_body h lc /\ last_two timed_body h lt lp /\
  (forall o, last_such video_body h o -> o = lv) /\ (forall o, last_such audio_body h o -> o = la) /\
  (forall o, last_such aac_body h o -> o = lc) /\ (forall o, last_such timed_body h o -> o = lt).
Proof.
  intros h. destruct (such_exists _ video_dec h) as [lv Hv]. destruct (such_exists _ audio_dec h) as [la Ha].
  destruct (such_exists _ aac_dec h) as [lc Hc]. destruct (two_exists _ timed_dec h) as (lt & lp & Ht). exists lv, la, lc, lt, lp.
  repeat split; try assumption; intros o Ho; (eapply such_unique; [exact Ho|]); try assumption. exact (two_such _ _ _ _ Ht).
Qed.
Print Assumptions C197_latest.

(** What a call returns depends on its body alone. *)
Theorem C197_results : forall h c, is_bytes (snd c) ->
  match snd (parse_media_tag_header (used h) (snd c) (fst c)) with
  | Ok n => header_bytes c (Some n)
  | Err _ => header_bytes c None
  | Panic | OutOfFuel => False
  end.
Proof.
  intros h [ty b] HB. generalize (used h). intros t. cbn [fst snd] in *. pose proof (body_bytes (ty, b) HB) as BB. cbn [snd] in BB.
  assert (HA : forall i, at_ b i = nth (Z.to_nat i) b 0) by reflexivity.
  destruct (Z.eq_dec ty 0) as [->|N0]; [|destruct (Z.eq_dec ty 1) as [->|N1]].
  - rewrite step_video by reflexivity. unfold parse_video. destruct (len b <? 5) eqn:EL; [apply HB_short_video; lia|].
    assert (HV : video_body (0, b)) by (unfold video_body; cbn; lia). cbn [t_frame].
    rewrite shr4 by (rewrite HA; apply BB). change InterFrame with 2. change KeyFrame with 1. change (at_ b 0) with (first_byte (0, b)).
    destruct ((first_byte (0, b) / 16 =? 2) || (first_byte (0, b) / 16 =? 1)) eqn:EK; cbn [snd].
    + apply HB_timed. split; [exact HV|lia].
    + apply HB_video; [exact HV|]. intros [_ X]. lia.
  - rewrite step_audio by reflexivity. unfold parse_audio. destruct (len b <? 2) eqn:EL; [apply HB_short_audio; lia|].
    assert (HU : audio_body (1, b)) by (unfold audio_body; cbn; lia). cbn [t_format].
    rewrite shr4 by (rewrite HA; apply BB). change SoundAAC with 10. change SoundMP3 with 2. change (at_ b 0) with (first_byte (1, b)).
    destruct (first_byte (1, b) / 16 =? 10) eqn:E1; [|destruct (first_byte (1, b) / 16 =? 2) eqn:E2]; cbn [snd].
    + apply HB_aac. split; [exact HU|lia].
    + apply HB_mp3; [exact HU|lia].
    + apply HB_sound; [exact HU|lia|lia].
  - unfold parse_media_tag_header. change PktVideo with 0. change PktAudio with 1. change PktMetadata with 2.
    replace (ty =? 0) with false by lia. replace (ty =? 1) with false by lia. destruct (Z.eqb_spec ty 2) as [->|N2]; cbn [snd]; [apply HB_meta|apply HB_type; lia].
Qed.
Print Assumptions C197_results.
Theorem C197_results_unique : forall c n m, header_bytes c n -> header_bytes c m -> n = m.
Proof.
  intros c n m H K. unfold timed_body, aac_body, video_body, audio_body in *.
  inversion H; subst; inversion K; subst; try reflexivity; exfalso; cbn [fst snd] in *; unfold timed_body, aac_body, video_body, audio_body in *; cbn [fst snd] in *; intuition (try lia).
Qed.
Print Assumptions C197_results_unique.

(** A sound format the Tag refuses is reported all the same, and AAC is no longer reported. *)
Theorem C197_refused_sound : forall h b, of_bytes h -> is_bytes b -> 2 <= len b -> first_byte (1, b) / 16 <> 10 -> first_byte (1, b) / 16 <> 2 ->
  (exists e, snd (parse_media_tag_header (used h) b 1) = Err e) /\
  a_format (tag_audio (used (h ++ [(1, b)]))) = first_byte (1, b) / 16 /\ a_aac (tag_audio (used (h ++ [(1, b)]))) = false.
Proof.
  intros h b HB Hb HL N1 N2. split.
  - pose proof (C197_results h (1, b) Hb) as R. cbn [fst snd] in R. destruct (snd (parse_media_tag_header (used h) b 1)) as [n|e| |]; [|eauto|contradiction|contradiction].
    assert (X : header_bytes (1, b) None) by (apply HB_sound; [split; cbn; lia|assumption|assumption]).
    pose proof (C197_results_unique _ _ _ R X). discriminate.
  - assert (HB' : of_bytes (h ++ [(1, b)])) by (apply Forall_app; split; [exact HB|constructor; [exact Hb|constructor]]).
    assert (Ha : last_such audio_body (h ++ [(1, b)]) (Some (1, b))) by (constructor; [split; cbn; lia|intros ? []]).
    destruct (such_exists _ aac_dec (h ++ [(1, b)])) as [lc Hc].
    rewrite (C197_audio _ _ _ HB' Ha Hc). cbn [a_format a_aac of_last]. split; [reflexivity|lia].
Qed.
Print Assumptions C197_refused_sound.

(** On a Tag that has parsed a key or inter frame before, a NALU has its own composition time just if the time of
    the frame before it ends in a zero byte. *)
Theorem C197_time_kept : forall h c d r, of_bytes (h ++ c :: r ++ [d]) -> timed_body c -> (forall e, In e r -> ~ timed_body e) -> timed_body d ->
  second_byte d = 1 -> (v_cts (tag_video (used (h ++ c :: r ++ [d]))) = time_of d <-> time_of c mod 256 = 0).
Proof.
  intros h c d r HB Hc Hr Hd H1.
  assert (E : h ++ c :: r ++ [d] = (h ++ c :: r) ++ [d]) by (rewrite <- app_assoc; reflexivity).
  assert (Ht : last_two timed_body (h ++ c :: r ++ [d]) (Some d) (Some c)).
  { rewrite E. constructor; [exact Hd|intros ? []|]. constructor; assumption. }
  destruct (such_exists _ video_dec (h ++ c :: r ++ [d])) as [lv Hv].
  rewrite (C197_video _ _ _ _ HB Hv Ht). cbn [v_cts of_last]. rewrite H1. change (1 =? 1) with true. cbn match.
  unfold held_time, signed32. cbn [of_last].
  assert (Bc : is_bytes (snd c)) by (apply (proj1 (Forall_forall _ _) HB); apply in_or_app; right; now left).
  assert (Bd : is_bytes (snd d)) by (apply (proj1 (Forall_forall _ _) HB); apply in_or_app; right; right; apply in_or_app; right; now left).
  pose proof (time_range c Bc). pose proof (time_range d Bd). generalize dependent (time_of c). generalize dependent (time_of d). intros.
  destruct (_ <? _) eqn:EL; lia.
Qed.
Print Assumptions C197_time_kept.

(** An AAC sequence header, a key frame at 40, an inter frame at 80, a Speex body: CompositionTime is
    40 * 2^24 + 80, the format is Speex, the AAC packet type still 0. *)
Example C197_example :
  let h := [(1, [175; 0; 18; 16]); (0, [23; 1; 0; 0; 40; 9]); (2, [2]); (0, [39; 1; 0; 0; 80; 9]); (1, [182; 1])] in
  of_bytes h /\ last_such video_body h (Some (0, [39; 1; 0; 0; 80; 9])) /\ last_such aac_body h (Some (1, [175; 0; 18; 16])) /\
  last_two timed_body h (Some (0, [39; 1; 0; 0; 80; 9])) (Some (0, [23; 1; 0; 0; 40; 9])) /\
  tag_audio (used h) = mkAH 11 0 false false true /\ tag_video (used h) = mkVH false true false false true 7 671088720.
Proof.
  cbn zeta. split; [repeat constructor; lia|].
  split; [apply (LS_some _ [(1, [175; 0; 18; 16]); (0, [23; 1; 0; 0; 40; 9]); (2, [2])] _ [(1, [182; 1])]); [split; vm_compute; congruence|intros d [<-|[]] [X _]; discriminate X]|].
  split; [apply (LS_some _ [] (1, [175; 0; 18; 16])); [split; [split; vm_compute; congruence|reflexivity]|
    intros d [<-|[<-|[<-|[<-|[]]]]] [[X _] Y]; try discriminate X; vm_compute in Y; discriminate Y]|].
  split; [|split; reflexivity].
  apply (LT_some _ [(1, [175; 0; 18; 16]); (0, [23; 1; 0; 0; 40; 9]); (2, [2])] _ [(1, [182; 1])]).
  - split; [split; vm_compute; congruence|right; reflexivity].
  - intros d [<-|[]] [[X _] _]. discriminate X.
  - apply (LS_some _ [(1, [175; 0; 18; 16])] _ [(2, [2])]).
    + split; [split; vm_compute; congruence|left; reflexivity].
    + intros d [<-|[]] [[X _] _]. discriminate X.
Qed.
