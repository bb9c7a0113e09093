(** Proofs about FLV Tags with a history. *)
From Verif Require Import Base.Go Base.GoFacts Base.IO Model.AmfTypes Model.Packet Model.Flv Spec.Flv Spec.FlvTag Proofs.Flv.
Local Ltac Zify.zify_post_hook ::= Z.div_mod_to_equations.

Lemma snoc_split {A} (h : list A) c r k d : h ++ c :: r = k ++ [d] ->
  (r = [] /\ h = k /\ c = d) \/ exists r', r = r' ++ [d] /\ k = h ++ c :: r'.
Proof.
  intros E. destruct r as [|x r _] using rev_ind.
  - left. apply app_inj_tail in E as [-> ->]. auto.
  - right. exists r. change (h ++ c :: r ++ [x]) with (h ++ (c :: r) ++ [x]) in E. rewrite app_assoc in E. apply app_inj_tail in E as [<- ->]. auto.
Qed.

Section History.
Variable P : call -> Prop.
Lemma such_new h c o : P c -> last_such P (h ++ [c]) o -> o = Some c.
Proof.
  intros HP H. inversion H as [k H1 E|k d r H1 H2 E]; subst.
  - exfalso. apply (H1 c); [apply in_or_app; right; now left|exact HP].
  - apply snoc_split in E as [(_ & _ & ->)|(r' & -> & _)]; [reflexivity|]. exfalso. apply (H2 c); [apply in_or_app; right; now left|exact HP].
Qed.
Lemma such_old h c o : ~ P c -> last_such P (h ++ [c]) o -> last_such P h o.
Proof.
  intros HP H. inversion H as [k H1 E|k d r H1 H2 E]; subst.
  - constructor. intros d Hd. apply H1. apply in_or_app. now left.
  - apply snoc_split in E as [(_ & _ & ->)|(r' & -> & ->)]; [contradiction|]. constructor; [exact H1|]. intros x Hx. apply H2. apply in_or_app. now left.
Qed.
Lemma two_new h c o p : P c -> last_two P (h ++ [c]) o p -> o = Some c /\ last_such P h p.
Proof.
  intros HP H. inversion H as [k H1 E|k d r q H1 H2 H3 E]; subst.
  - apply (such_new _ _ _ HP) in H1. discriminate.
  - apply snoc_split in E as [(_ & -> & ->)|(r' & -> & _)]; [auto|]. exfalso. apply (H2 c); [apply in_or_app; right; now left|exact HP].
Qed.
Lemma two_old h c o p : ~ P c -> last_two P (h ++ [c]) o p -> last_two P h o p.
Proof.
  intros HP H. inversion H as [k H1 E|k d r q H1 H2 H3 E]; subst.
  - constructor. exact (such_old _ _ _ HP H1).
  - apply snoc_split in E as [(_ & _ & ->)|(r' & -> & ->)]; [contradiction|]. constructor; [exact H1| |exact H3]. intros x Hx. apply H2. apply in_or_app. now left.
Qed.
Lemma such_exists (D : forall c, P c \/ ~ P c) h : exists o, last_such P h o.
Proof.
  induction h as [|c h [o IH]] using rev_ind; [exists None; constructor; intros ? []|].
  destruct (D c) as [HP|HP].
  - exists (Some c). constructor; [exact HP|intros ? []].
  - exists o. inversion IH as [k H1 E|k d r H1 H2 E]; subst.
    + constructor. intros d [Hd|[<-|[]]]%in_app_or; auto.
    + rewrite <- app_assoc. constructor; [exact H1|]. intros x [Hx|[<-|[]]]%in_app_or; auto.
Qed.
Lemma two_exists (D : forall c, P c \/ ~ P c) h : exists o p, last_two P h o p.
Proof.
  induction h as [|c h (o & p & IH)] using rev_ind; [exists None, None; constructor; constructor; intros ? []|].
  destruct (D c) as [HP|HP].
  - destruct (such_exists D h) as [q Hq]. exists (Some c), q. constructor; [exact HP|intros ? []|exact Hq].
  - exists o, p. inversion IH as [k H1 E|k d r q H1 H2 H3 E]; subst.
    + constructor. inversion H1; subst. constructor. intros d [Hd|[<-|[]]]%in_app_or; auto.
    + rewrite <- app_assoc. constructor; [exact H1| |exact H3]. intros x [Hx|[<-|[]]]%in_app_or; auto.
Qed.
Lemma two_such h o p : last_two P h o p -> last_such P h o.
Proof. intros H. destruct H; [assumption|constructor; assumption]. Qed.
Lemma such_unique h : forall o o', last_such P h o -> last_such P h o' -> o = o'.
Proof.
  intros o o' H H'. inversion H as [k H1 E|k d r H1 H2 E]; subst.
  - inversion H' as [|k d r H3 H4 E]; subst; [reflexivity|]. exfalso. apply (H1 d); [apply in_or_app; right; now left|exact H3].
  - clear H. remember (k ++ d :: r) as g eqn:E. revert r H2 E H'. induction g as [|x g IH] using rev_ind; intros r H2 E H'; [now destruct k|].
    symmetry in E. apply snoc_split in E as [(-> & <- & <-)|(r' & -> & ->)].
    + symmetry. exact (such_new _ _ _ H1 H').
    + apply (IH r'); [|reflexivity|].
      * intros y Hy. apply H2. apply in_or_app. now left.
      * apply (such_old _ x); [|exact H']. apply H2. apply in_or_app. right. now left.
Qed.
End History.

Lemma video_dec c : video_body c \/ ~ video_body c.
Proof. unfold video_body. destruct (Z.eq_dec (fst c) 0), (Z_le_dec 5 (len (snd c))); tauto. Qed.
Lemma audio_dec c : audio_body c \/ ~ audio_body c.
Proof. unfold audio_body. destruct (Z.eq_dec (fst c) 1), (Z_le_dec 2 (len (snd c))); tauto. Qed.
Lemma timed_dec c : timed_body c \/ ~ timed_body c.
Proof. unfold timed_body. destruct (video_dec c), (Z.eq_dec (first_byte c / 16) 1), (Z.eq_dec (first_byte c / 16) 2); tauto. Qed.
Lemma aac_dec c : aac_body c \/ ~ aac_body c.
Proof. unfold aac_body. destruct (audio_dec c), (Z.eq_dec (first_byte c / 16) 10); tauto. Qed.

(** The state of a Tag after a history. *)
Definition state (h : list call) (t : tag) : Prop :=
  forall lv la lc lt lp, last_such video_body h lv -> last_such audio_body h la -> last_such aac_body h lc -> last_two timed_body h lt lp ->
  t_format t = of_last first_byte la / 16 /\ t_aactype t = of_last second_byte lc /\
  t_frame t = of_last first_byte lv / 16 /\ t_codec t = of_last first_byte lv mod 16 /\
  t_avctype t = of_last second_byte lt /\ t_cts t = held_time lt lp.

Lemma body_bytes (c : call) : is_bytes (snd c) -> forall i, byte (nth i (snd c) 0).
Proof.
  intros H i. destruct (Nat.lt_ge_cases i (length (snd c))) as [G|G].
  - apply (proj1 (Forall_forall _ _) H). apply nth_In. exact G.
  - rewrite nth_overflow by exact G. unfold byte. lia.
Qed.
Lemma time_range (c : call) : is_bytes (snd c) -> 0 <= time_of c < 16777216.
Proof.
  intros H. pose proof (body_bytes c H 2). pose proof (body_bytes c H 3). pose proof (body_bytes c H 4). unfold time_of, byte in *. lia.
Qed.
Lemma held_low o p : 0 <= of_last time_of o < 16777216 -> held_time o p mod 256 = of_last time_of o mod 256.
Proof.
  unfold held_time, signed32. generalize (of_last time_of o) (of_last time_of p). intros x y Hx.
  destruct (_ <? _); lia.
Qed.
Lemma held_next o p q c : 0 <= of_last time_of o < 16777216 -> 0 <= time_of c < 16777216 -> q = o ->
  i32 (held_time o p * 16777216 + time_of c) = held_time (Some c) q.
Proof.
  intros Ho Hc ->. pose proof (held_low o p Ho) as HL. revert HL. generalize (held_time o p). intros z HL.
  unfold held_time, signed32. cbn [of_last]. revert HL Ho Hc. generalize (time_of c) (of_last time_of o). intros x y HL Ho Hc.
  unfold i32. destruct (_ <? _) eqn:E; apply Z.ltb_lt in E || apply Z.ltb_ge in E; lia.
Qed.

Definition step (t : tag) (c : call) : tag := fst (parse_media_tag_header t (snd c) (fst c)).

Lemma step_video t ty b : ty = 0 -> parse_media_tag_header t b ty = parse_video t b.
Proof. intros ->. reflexivity. Qed.
Lemma step_audio t ty b : ty = 1 -> parse_media_tag_header t b ty = parse_audio t b.
Proof. intros ->. reflexivity. Qed.

Lemma state_step h t c : Forall (fun d : call => is_bytes (snd d)) (h ++ [c]) -> state h t -> state (h ++ [c]) (step t c).
Proof.
  intros HB HS lv la lc lt lp Hv Ha Hc Ht.
  assert (HBh : Forall (fun d : call => is_bytes (snd d)) h) by (apply Forall_app in HB as [A _]; exact A).
  assert (HBc : is_bytes (snd c)) by (apply Forall_app in HB as [_ B]; inversion B; subst; assumption).
  pose proof (body_bytes c HBc) as BB.
  assert (HA : forall i, at_ (snd c) i = nth (Z.to_nat i) (snd c) 0) by reflexivity.
  unfold step. destruct c as [ty b]. cbn [fst snd] in *.
  destruct (Z.eq_dec ty 0) as [->|N0]; [|destruct (Z.eq_dec ty 1) as [->|N1]].
  - assert (NA : ~ audio_body (0, b)) by (intros [X _]; discriminate X).
    assert (NC : ~ aac_body (0, b)) by (intros [X _]; contradiction).
    apply (such_old _ _ _ _ NA) in Ha. apply (such_old _ _ _ _ NC) in Hc.
    rewrite step_video by reflexivity. unfold parse_video. destruct (len b <? 5) eqn:EL.
    + assert (NV : ~ video_body (0, b)) by (unfold video_body; cbn; lia).
      assert (NT : ~ timed_body (0, b)) by (intros [X _]; contradiction).
      apply (such_old _ _ _ _ NV) in Hv. apply (two_old _ _ _ _ _ NT) in Ht. cbn [fst]. exact (HS _ _ _ _ _ Hv Ha Hc Ht).
    + assert (HV : video_body (0, b)) by (unfold video_body; cbn; lia).
      destruct (such_exists _ video_dec h) as [lv0 Hv0]. apply (such_new _ _ _ _ HV) in Hv as ->.
      cbn [t_frame t_format t_rate t_size t_stype t_aactype t_codec t_avctype t_cts]. rewrite cts3 by (rewrite HA; apply BB).
      rewrite shr4 by (rewrite HA; apply BB). rewrite land15. change InterFrame with 2. change KeyFrame with 1.
      change (at_ b 0) with (first_byte (0, b)). change (at_ b 1) with (second_byte (0, b)).
      change (be24_val (at_ b 2) (at_ b 3) (at_ b 4)) with (time_of (0, b)).
      destruct ((first_byte (0, b) / 16 =? 2) || (first_byte (0, b) / 16 =? 1)) eqn:EK.
      * assert (HT : timed_body (0, b)) by (split; [exact HV|lia]).
        apply (two_new _ _ _ _ _ HT) in Ht as [-> Hp]. destruct (two_exists _ timed_dec h) as (lt0 & lp0 & Ht0).
        destruct (HS _ _ _ _ _ Hv0 Ha Hc Ht0) as (E1 & E2 & E3 & E4 & E5 & E6). cbn [fst]. cbn [t_frame t_format t_aactype t_codec t_avctype t_cts of_last].
        repeat split; try assumption. rewrite E6. apply held_next.
        -- destruct lt0 as [d|]; cbn [of_last]; [|lia]. apply time_range. apply (proj1 (Forall_forall _ _) HBh).
           apply two_such in Ht0. inversion Ht0; subst. apply in_or_app. right. now left.
        -- apply time_range. exact HBc.
        -- apply two_such in Ht0. exact (such_unique _ _ _ _ Hp Ht0).
      * assert (NT : ~ timed_body (0, b)) by (intros [_ X]; lia). apply (two_old _ _ _ _ _ NT) in Ht.
        destruct (HS _ _ _ _ _ Hv0 Ha Hc Ht) as (E1 & E2 & E3 & E4 & E5 & E6). cbn [fst]. cbn [t_frame t_format t_aactype t_codec t_avctype t_cts of_last].
        repeat split; assumption.
  - assert (NV : ~ video_body (1, b)) by (intros [X _]; discriminate X).
    assert (NT : ~ timed_body (1, b)) by (intros [X _]; contradiction).
    apply (such_old _ _ _ _ NV) in Hv. apply (two_old _ _ _ _ _ NT) in Ht.
    rewrite step_audio by reflexivity. unfold parse_audio. destruct (len b <? 2) eqn:EL.
    + assert (NA : ~ audio_body (1, b)) by (unfold audio_body; cbn; lia).
      assert (NC : ~ aac_body (1, b)) by (intros [X _]; contradiction).
      apply (such_old _ _ _ _ NA) in Ha. apply (such_old _ _ _ _ NC) in Hc. cbn [fst]. exact (HS _ _ _ _ _ Hv Ha Hc Ht).
    + assert (HAu : audio_body (1, b)) by (unfold audio_body; cbn; lia).
      destruct (such_exists _ audio_dec h) as [la0 Ha0]. apply (such_new _ _ _ _ HAu) in Ha as ->.
      cbn [t_frame t_format t_rate t_size t_stype t_aactype t_codec t_avctype t_cts].
      rewrite shr4 by (rewrite HA; apply BB). change SoundAAC with 10. change SoundMP3 with 2.
      change (at_ b 0) with (first_byte (1, b)). change (at_ b 1) with (second_byte (1, b)).
      destruct (first_byte (1, b) / 16 =? 10) eqn:E10.
      * assert (HC : aac_body (1, b)) by (split; [exact HAu|lia]). destruct (such_exists _ aac_dec h) as [lc0 Hc0].
        apply (such_new _ _ _ _ HC) in Hc as ->. destruct (HS _ _ _ _ _ Hv Ha0 Hc0 Ht) as (E1 & E2 & E3 & E4 & E5 & E6).
        cbn [fst]. cbn [t_frame t_format t_aactype t_codec t_avctype t_cts of_last]. repeat split; assumption.
      * assert (NC : ~ aac_body (1, b)) by (intros [_ X]; lia). apply (such_old _ _ _ _ NC) in Hc.
        destruct (HS _ _ _ _ _ Hv Ha0 Hc Ht) as (E1 & E2 & E3 & E4 & E5 & E6).
        destruct (first_byte (1, b) / 16 =? 2); cbn [fst]; cbn [t_frame t_format t_aactype t_codec t_avctype t_cts of_last]; repeat split; assumption.
  - assert (NV : ~ video_body (ty, b)) by (intros [X _]; contradiction).
    assert (NT : ~ timed_body (ty, b)) by (intros [X _]; contradiction).
    assert (NA : ~ audio_body (ty, b)) by (intros [X _]; contradiction).
    assert (NC : ~ aac_body (ty, b)) by (intros [X _]; contradiction).
    apply (such_old _ _ _ _ NV) in Hv. apply (two_old _ _ _ _ _ NT) in Ht. apply (such_old _ _ _ _ NA) in Ha. apply (such_old _ _ _ _ NC) in Hc.
    unfold parse_media_tag_header. change PktVideo with 0. change PktAudio with 1. replace (ty =? 0) with false by lia. replace (ty =? 1) with false by lia.
    destruct (ty =? PktMetadata); cbn [fst]; exact (HS _ _ _ _ _ Hv Ha Hc Ht).
Qed.
Lemma state_new : state [] tag0.
Proof.
  assert (N : forall P o, last_such P [] o -> o = None).
  { intros P o H. inversion H as [|k d r H1 H2 E]; [reflexivity|]. now destruct k. }
  intros lv la lc lt lp Hv Ha Hc Ht. rewrite (N _ _ Hv), (N _ _ Ha), (N _ _ Hc).
  inversion Ht as [k H1 E|k d r q H1 H2 H3 E]; [|now destruct k]. subst. cbn. repeat split.
Qed.
Lemma state_run h : Forall (fun d : call => is_bytes (snd d)) h -> state h (fold_left step h tag0).
Proof.
  induction h as [|c h IH] using rev_ind; intros HB; [apply state_new|].
  rewrite fold_left_app. cbn [fold_left]. apply state_step; [exact HB|]. apply IH. apply Forall_app in HB as [A _]. exact A.
Qed.
