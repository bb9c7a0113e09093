(** Property C179: what a TS Mixer sends and answers, from the history of calls alone. *)
From Coq Require Import String.
From Verif Require Import Base.Go Base.GoFacts Base.IO Proofs.IOFacts Model.AmfTypes Model.Packet Model.Parsers Model.Ts
  Spec.Parsers Spec.H264 Spec.Codec Spec.Ts Spec.TsClock Proofs.Parsers Proofs.TsPackets Proofs.TsTables Proofs.TsMore Props.Parsers Props.H264 Props.Codec Props.Ts Props.TsMixer Props.Remux Props.TsClock Spec.Mixer.
Import ListNotations.
Local Open Scope list_scope.
Local Open Scope Z_scope.
Local Ltac Zify.zify_post_hook ::= Z.div_mod_to_equations.

(** Media are bytes, and the keys of metadata are distinct, as in a Go map. *)
Definition proper (o : mix_op) : Prop :=
  match o with
  | XMux p | XSaveAVC p | XSaveAAC p => media_bytes p
  | XMeta md => NoDup (map fst md)
  | XSetWriter _ => False
  | _ => True
  end.
Lemma proper_audio os : Forall proper os -> audio_bytes os.
Proof.
  intros H. eapply Forall_impl; [|exact H]. intros o Ho. destruct o; try exact I; apply route_bytes in Ho; destruct (route_of p); try exact I; exact Ho.
Qed.
Lemma proper_writer os : Forall proper os -> Forall same_writer os.
Proof. intros H. eapply Forall_impl; [|exact H]. intros o Ho. destruct o; try exact I. exact Ho. Qed.
Lemma knows_rate c k : knows c k -> codec_rate c = match known_rate k with Some r => Ok r | None => Err EOther end.
Proof.
  intros (_ & K2 & K3). unfold codec_rate, known_rate. destruct (cp_aac c) as [a|].
  - destruct K2 as [-> K2]. f_equal. destruct (k_config k) as [[[o i] ch]|]; [|subst a; reflexivity]. destruct K2 as (-> & _ & Hi & _).
    unfold aac_sample_rate. cbn [ac_rate]. assert (HI : In i [0; 1; 2; 3; 4; 5; 6; 7; 8; 9; 10; 11; 12; 13; 14; 15]) by (cbn [In]; lia).
    cbn [In] in HI. repeat (destruct HI as [<-|HI]; [reflexivity|]). elim HI.
  - destruct K2 as [-> _]. rewrite K3. destruct (k_mp3 k); reflexivity.
Qed.
Lemma keyed_key p b : is_key (set_media b p) = keyed p.
Proof. rewrite set_media_key. unfold is_key, keyed. destruct (video_of p) as [v|]; [reflexivity|]. destruct (p_type p =? PktVideo); reflexivity. Qed.
Lemma last_meta_proper os : Forall proper os -> forall d, match d with Some m => NoDup (map fst m) | None => True end -> match last_meta os d with Some m => NoDup (map fst m) | None => True end.
Proof. induction 1 as [|o os Ho _ IH]; intros d Hd; [exact Hd|]. destruct o; cbn [last_meta]; apply IH; try exact Hd. exact Ho. Qed.
Lemma name_exists md k : exists n, name_in md k n.
Proof.
  induction md as [|[k' v] md (n & IH)]; [exists (str "undefined"); right; split; [reflexivity|intros s []]|].
  destruct IH as [IH|[-> IH]]; [exists n; left; right; exact IH|]. destruct (bytes_eqb k k') eqn:E.
  - apply bytes_eqb_eq in E. subst k'. destruct v; try (exists (str "undefined"); right; split; [reflexivity|]; intros s0 [X|X]; [discriminate X|exact (IH s0 X)]).
    eexists. left. left. reflexivity.
  - exists (str "undefined"). right. split; [reflexivity|]. intros s [X|X]; [|exact (IH s X)]. injection X as -> _. rewrite bytes_eqb_refl in E. discriminate.
Qed.

(** One call. *)
Lemma call_at before x w k : mix_inv x -> (x_pts x, x_dts x) = (k_pts (clock_after before), k_dts (clock_after before)) -> x_meta x = meta_of (last_meta before None) -> never_fails w -> knows (x_codec x) k ->
  forall o k' fs v, proper o -> call_mixed before k o k' fs v ->
  let '(x', w', r) := mix_step (x, w) o in
  r = verdict_res v /\ frames_sent (x, w) [o] = fs /\ never_fails w' /\ knows (x_codec x') k'.
Proof.
  intros HI HT EM HW HK o k' fs v Ho H. pose proof HI as (HM & _).
  injection HT as HT1 HT2. unfold frames_sent. rewrite app_nil_r. cbn [fst snd].
  assert (MUX : forall p k' media v, media_bytes p -> codec_converted k (route_of p) k' media v -> exists c wc, codec_parse (x_codec x) p buffer0 = (c, (wc, verdict_res v)) /\ knows c k' /\ w_out wc = media).
  { intros p k1 media v1 Hm Hc. destruct (codec_step _ _ _ _ _ Hc (x_codec x) p buffer0 eq_refl Hm HK (fun _ => eq_refl)) as (c' & w' & A1 & A2 & A3). exists c', w'. auto. }
  assert (LEN : forall p pts dts b, can_mux p -> ((if (p_type p =? 0) && negb (pts =? dts) then 19 else 14) + len b) = len (mux_bytes (set_media b p) dts pts)).
  { intros p pts dts b HC. rewrite total_len by (destruct HC as [X|[X _]]; [right|left]; exact X). reflexivity. }
  inversion H as [p k1 media HC HU|p k1 media HC HU|p k1 media v1 HC HV|o1 p k1 media v1 HO HC|md|names HN|p ms cts]; subst; cbn [mix_step proper] in *.
  - destruct (MUX _ _ _ _ Ho HC) as (c & wc & A1 & A2 & A3). rewrite mux_result, A1. cbn [verdict_res]. pose proof (codec_accepts_can _ _ _ _ _ A1) as HCm. rewrite A3. set (q := set_media media p).
    destruct (mux_frame (x_muxer x) q (x_dts x) (x_pts x) w HM (proj2 (set_media_can _ _) HCm)) as (m' & w' & out & p0 & l & X & _ & X2 & _).
    { intros HKq. unfold q in HKq. rewrite keyed_key in HKq. unfold q. rewrite <- (LEN p (x_pts x) (x_dts x) media HCm). unfold unsendable in HU. rewrite HKq, <- HT1, <- HT2 in HU. cbn [andb] in HU. lia. } { exact HW. }
    rewrite X. split; [reflexivity|]. split; [rewrite HT1, HT2; reflexivity|]. split; [exact X2|exact A2].
  - destruct (MUX _ _ _ _ Ho HC) as (c & wc & A1 & A2 & A3). rewrite mux_result, A1. cbn [verdict_res]. pose proof (codec_accepts_can _ _ _ _ _ A1) as HCm. rewrite A3. set (q := set_media media p).
    unfold unsendable in HU. apply andb_prop in HU as [HU U3]. apply andb_prop in HU as [U1 U2]. rewrite <- HT1, <- HT2 in U2, U3. rewrite (LEN p (x_pts x) (x_dts x) media HCm) in U2, U3.
    destruct (ts_mux_panic (x_muxer x) q (x_dts x) (x_pts x) w HM (proj2 (set_media_can _ _) HCm)) as (m' & X & _). { unfold q. rewrite keyed_key. exact U1. } { unfold q. lia. }
    rewrite X. split; [reflexivity|]. split; [reflexivity|]. split; [exact HW|exact A2].
  - destruct (MUX _ _ _ _ Ho HC) as (c & wc & A1 & A2 & A3). rewrite mux_result, A1. destruct v; [congruence| |]; cbn [verdict_res]; (split; [reflexivity|]); (split; [reflexivity|]); (split; [exact HW|exact A2]).
  - assert (Hm : media_bytes p) by (destruct HO as [-> | ->]; exact Ho). destruct (MUX _ _ _ _ Hm HC) as (c & wc & A1 & A2 & A3).
    assert (SAVE : forall t, exists x' p', mix_save_header t x p = (x', p', verdict_res (match v1 with Accepted => if unsendable p 0 0 media then Crashed else Accepted | _ => v1 end)) /\ knows (x_codec x') k').
    { intros t. unfold mix_save_header, mix_parse. cbn [x_codec set_types]. rewrite A1, A3. destruct v1; cbn [verdict_res]; try (eexists _, _; split; [reflexivity|exact A2]).
      pose proof (codec_accepts_can _ _ _ _ _ A1) as HCm. cbn [x_muxer set_codec set_types]. pose proof (LEN p 0 0 media HCm) as HL. unfold unsendable. destruct (keyed p) eqn:EK; cbn [andb].
      - destruct ((176 <=? _) && _) eqn:EB.
        + apply andb_prop in EB as [B1 B2]. destruct (ts_mux_panic (x_muxer x) (set_media media p) 0 0 buffer0 HM (proj2 (set_media_can _ _) HCm)) as (m' & X & _); [rewrite keyed_key; exact EK|lia|]. rewrite X. eexists _, _. split; [reflexivity|exact A2].
        + destruct (mux_frame (x_muxer x) (set_media media p) 0 0 buffer0 HM (proj2 (set_media_can _ _) HCm)) as (m' & w' & out & p0 & l & X & _); [lia|intros n; reflexivity|]. rewrite X. eexists _, _. split; [reflexivity|exact A2].
      - destruct (mux_frame (x_muxer x) (set_media media p) 0 0 buffer0 HM (proj2 (set_media_can _ _) HCm)) as (m' & w' & out & p0 & l & X & _); [rewrite keyed_key, EK; discriminate|intros n; reflexivity|]. rewrite X. eexists _, _. split; [reflexivity|exact A2]. }
    destruct HO as [-> | ->]; cbn [mix_step]; unfold mix_save_avc, mix_save_aac; match goal with |- context [mix_save_header ?t x p] => destruct (SAVE t) as (x' & p' & S1 & S2) end; rewrite S1; (split; [reflexivity|]); (split; [reflexivity|]); (split; [exact HW|exact S2]).
  - split; [reflexivity|]. split; [reflexivity|]. split; [exact HW|exact HK].
  - rewrite set_header_tables.
    assert (EL : len (x_meta x) <= 163 <-> names_len names <= 158).
    { rewrite EM. destruct (last_meta before None) as [m|], names as [[pr se]|]; cbn [names_in meta_of names_len] in *; try contradiction; [|unfold len; cbn; lia].
      destruct HN as (N0 & N1 & N2). apply (name_in_str _ _ _ N0) in N1, N2. fold (provider_of m) in N1. fold (service_of m) in N2. rewrite service_len, N1, N2. lia. }
    destruct (Z.ltb_spec 158 (names_len names)) as [HL|HL].
    + destruct (tables_panic x HM ltac:(lia)) as (kk & X). rewrite X. split; [reflexivity|]. split; [reflexivity|]. split; [exact HW|exact HK].
    + destruct (tables_ok x HM ltac:(lia)) as (kk & s & a & b & ps & pa & pb & ba & bb & X & _). rewrite X, run_plan_ok by exact HW. split; [reflexivity|]. split; [reflexivity|]. split; [exact HW|exact HK].
  - destruct HI as (_ & HC & HS & _). unfold mix_update. pose proof (knows_rate _ _ HK) as ER. change PktVideo with 0. change PktAudio with 1. destruct (Z.eqb_spec (p_type p) 0) as [E0|E0].
    { rewrite E0. change (0 =? 1) with false. split; [destruct (known_rate k'); reflexivity|]. split; [reflexivity|]. split; [exact HW|exact HK]. }
    destruct (p_type p =? 1); [|split; [destruct (known_rate k'); reflexivity|]; split; [reflexivity|]; split; [exact HW|exact HK]].
    rewrite ER. destruct (known_rate k') as [rate|] eqn:EK; [|split; [reflexivity|]; split; [reflexivity|]; split; [exact HW|exact HK]].
    pose proof (codec_rate_range _ _ HC ER) as HR. destruct (sync_step_bounded (x_sync x) (u32 (ms * 90)) rate HS) as (s' & d & X & _); [unfold u32; lia|lia|]. rewrite X.
    split; [reflexivity|]. split; [reflexivity|]. split; [exact HW|exact HK].
Qed.
Lemma call_ok before x w w0 rs0 k : mix_run (new_tsmix, w0) before = (x, w, rs0) -> Forall proper before -> never_fails w -> knows (x_codec x) k ->
  forall o k' fs v, proper o -> call_mixed before k o k' fs v ->
  let '(x', w', r) := mix_step (x, w) o in
  r = verdict_res v /\ frames_sent (x, w) [o] = fs /\ never_fails w' /\ knows (x_codec x') k'.
Proof.
  intros E HP HW HK. pose proof (mixer_ok x (ex_intro _ before (ex_intro _ w0 (ex_intro _ w (ex_intro _ rs0 E))))) as HI.
  destruct (run_kept before new_tsmix w0 x w rs0 false false None E eq_refl eq_refl) as [_ EM].
  exact (call_at before x w k HI (C161_clock before w0 x w rs0 (proper_audio _ HP) E) EM HW HK).
Qed.
Lemma names_exist (l : option omap) : match l with Some m => NoDup (map fst m) | None => True end -> exists names, names_in l names.
Proof.
  intros HN. destruct l as [m|]; [|exists None; exact I]. destruct (name_exists m (str "Provider")) as (a & Ha). destruct (name_exists m (str "Service")) as (b & Hb). exists (Some (a, b)). split; [exact HN|]. auto.
Qed.
Lemma call_total before k o : Forall proper before -> proper o -> exists k' fs v, call_mixed before k o k' fs v.
Proof.
  intros HP Ho. destruct o as [p|md|p|p| |p ms cts|w2]; cbn [proper] in Ho.
  - destruct (codec_total k p Ho) as (k1 & media & v & H). destruct v; [|eexists _, _, _; eapply Mx_refused; [exact H|discriminate]|eexists _, _, _; eapply Mx_refused; [exact H|discriminate]].
    destruct (unsendable p (k_pts (clock_after before)) (k_dts (clock_after before)) media) eqn:EU; eexists _, _, _; [eapply Mx_unsendable|eapply Mx_frame]; eassumption.
  - eexists _, _, _. apply Mx_metadata.
  - destruct (codec_total k p Ho) as (k1 & media & v & H). eexists _, _, _. eapply Mx_header; [left; reflexivity|exact H].
  - destruct (codec_total k p Ho) as (k1 & media & v & H). eexists _, _, _. eapply Mx_header; [right; reflexivity|exact H].
  - assert (N : exists names, names_in (last_meta before None) names).
    { apply names_exist. exact (last_meta_proper _ HP None I). }
    destruct N as (names & N). eexists _, _, _. apply (Mx_tables _ _ _ N).
  - eexists _, _, _. apply Mx_update.
  - contradiction.
Qed.
Lemma verdict_res_inj a b : verdict_res a = verdict_res b -> a = b. Proof. destruct a, b; cbn; congruence. Qed.
(** All calls. *)
Lemma mixed_run before k os fs vs : mixed before k os fs vs -> Forall proper before -> Forall proper os -> forall w0 x w rs0, mix_run (new_tsmix, w0) before = (x, w, rs0) -> never_fails w -> knows (x_codec x) k ->
  frames_sent (x, w) os = fs /\ snd (mix_run (x, w) os) = map verdict_res vs.
Proof.
  induction 1 as [before k|before k o k' fs v os fs' vs HC HM IH]; intros HB HO w0 x w rs0 E HW HK; [split; reflexivity|]. inversion HO as [|? ? HO1 HO2]; subst.
  pose proof (call_ok before x w w0 rs0 k E HB HW HK o k' fs v HO1 HC) as H. destruct (mix_step (x, w) o) as [[x1 w1] r] eqn:ES. destruct H as (A1 & A2 & A3 & A4).
  assert (E1 : mix_run (new_tsmix, w0) (before ++ [o]) = (x1, w1, rs0 ++ [r])).
  { clear - E ES. revert E. generalize (new_tsmix, w0) as s. revert rs0. induction before as [|o1 b IHb]; intros rs0 s E; cbn [app mix_run] in *; [injection E as -> <-; rewrite ES; reflexivity|].
    destruct (mix_step s o1) as [s1 r1]. destruct (mix_run s1 b) as [s2 r2] eqn:E2. injection E as -> <-. rewrite (IHb _ _ E2). reflexivity. }
  destruct (IH (proj2 (Forall_app _ _ _) (conj HB (Forall_cons _ HO1 (Forall_nil _)))) HO2 w0 x1 w1 _ E1 A3 A4) as [I1 I2].
  assert (EF : frames_sent (x, w) (o :: os) = frames_sent (x, w) [o] ++ frames_sent (fst (mix_step (x, w) o)) os) by (cbn [frames_sent]; rewrite app_nil_r; reflexivity).
  rewrite EF, ES. cbn [fst]. rewrite A2, I1. split; [reflexivity|]. cbn [mix_run map]. rewrite ES. destruct (mix_run (x1, w1) os) as [s2 rs]. cbn [snd] in *. rewrite A1, I2. reflexivity.
Qed.
Lemma mixed_exists before k os : Forall proper before -> Forall proper os -> exists fs vs, mixed before k os fs vs.
Proof.
  revert before k. induction os as [|o os IH]; intros before k HB HO; [exists [], []; constructor|]. inversion HO as [|? ? HO1 HO2]; subst. destruct (call_total before k o HB HO1) as (k1 & fs & v & H).
  destruct (IH (before ++ [o]) k1) as (fs' & vs & H'); [apply Forall_app; auto|exact HO2|]. exists (fs ++ fs'), (v :: vs). econstructor; eassumption.
Qed.

(** ** C179 *)
(** The relation determines the frames sent and the answers, for every history. *)
Theorem C179_relation : forall os, Forall proper os -> exists! x, mixed [] nothing os (fst x) (snd x).
Proof.
  intros os HO. destruct (mixed_exists [] nothing os (Forall_nil _) HO) as (fs & vs & H). exists (fs, vs). split; [exact H|]. intros [fs' vs'] H'. cbn [fst snd] in *.
  destruct (mixed_run _ _ _ _ _ H (Forall_nil _) HO buffer0 new_tsmix buffer0 [] eq_refl (fun _ => eq_refl) new_knows) as [A1 A2].
  destruct (mixed_run _ _ _ _ _ H' (Forall_nil _) HO buffer0 new_tsmix buffer0 [] eq_refl (fun _ => eq_refl) new_knows) as [B1 B2].
  assert (EV : vs = vs'). { clear - A2 B2. rewrite A2 in B2. revert vs' B2. clear A2. induction vs as [|v vs IH]; intros [|v' vs'] E; cbn [map] in E; [reflexivity|discriminate|discriminate|]. injection E as E1 E2. apply verdict_res_inj in E1. subst. f_equal. auto. }
  congruence.
Qed.
Print Assumptions C179_relation.
(** Whatever is called, a new Mixer on a working writer answers as the relation says; and if no call panics, a demultiplexer finds exactly its frames. *)
Theorem C179_mixer : forall os fs vs w0 x w rs, Forall proper os -> never_fails w0 -> mixed [] nothing os fs vs -> mix_run (new_tsmix, w0) os = (x, w, rs) ->
  rs = map (fun v => match v with Accepted => Ok tt | Refused => Err EOther | Crashed => Panic end) vs /\
  (~ In Crashed vs -> Forall (fun f => sf_key f = true -> 170 <= len (sf_media f)) fs ->
   exists out video audio, w_out w = w_out w0 ++ out /\ demultiplex 0x100 out = Some video /\ demultiplex 0x101 out = Some audio /\
     Forall2 carries (of_type 0 fs) video /\ Forall2 carries (of_type 1 fs) audio).
Proof.
  intros os fs vs w0 x w rs HO HW H E. destruct (mixed_run _ _ _ _ _ H (Forall_nil _) HO w0 new_tsmix w0 [] eq_refl HW new_knows) as [A1 A2]. rewrite E in A2. cbn [snd] in A2. split; [exact A2|].
  intros HC HL. assert (HN : ~ In Panic rs). { rewrite A2. intros X. apply in_map_iff in X as (v & X1 & X2). destruct v; try discriminate. exact (HC X2). }
  assert (HU : mixer_used new_tsmix) by (exists [], w0, w0, []; reflexivity). rewrite <- A1 in HL.
  destruct (C132_stream_read_back _ _ _ _ _ _ HU (proper_writer _ HO) HW E HN HL) as (out & video & audio & B1 & B2 & B3 & B4 & B5). rewrite A1 in B4, B5. exists out, video, audio. auto.
Qed.
Print Assumptions C179_mixer.
(** Metadata, tables, a sound frame before its configuration (refused), and then the history of C130: two frames are sent. *)
Definition ex_calls : list mix_op := [XMeta [(str "Provider", VStr (str "me")); (str "Service", VNum 7)]; XHeader; XUpdate (body 1 [0xaf; 1; 7; 7]) 23 0; XMux (body 1 [0xaf; 1; 7; 7])] ++ remuxed ex_history.
Example C179_example : Forall proper ex_calls /\ exists fs vs, mixed [] nothing ex_calls fs vs /\ vs = [Accepted; Accepted; Refused; Refused; Accepted; Accepted; Accepted; Accepted; Accepted; Accepted] /\
  map (fun f => (sf_type f, sf_pts f, len (sf_media f))) fs = [(1, 2070, 9); (0, 7200, 12)] /\ Forall (fun f => sf_key f = true -> 170 <= len (sf_media f)) fs.
Proof.
  assert (HP : Forall proper ex_calls).
  { let l := eval vm_compute in ex_calls in change (Forall proper l).
    apply Forall_cons; [cbn [proper map fst]; constructor; [intros [X|[]]; discriminate X|constructor; [intros []|constructor]]|].
    repeat (apply Forall_cons; [first [exact I|intros m X; first [discriminate X|injection X as <-; apply bytes_dec; vm_compute; reflexivity]]|]). constructor. }
  split; [exact HP|]. destruct (mixed_exists [] nothing ex_calls (Forall_nil _) HP) as (fs & vs & H). exists fs, vs. split; [exact H|].
  destruct (mixed_run _ _ _ _ _ H (Forall_nil _) HP buffer0 new_tsmix buffer0 [] eq_refl (fun _ => eq_refl) new_knows) as [A1 A2].
  assert (EV : map verdict_res vs = map verdict_res [Accepted; Accepted; Refused; Refused; Accepted; Accepted; Accepted; Accepted; Accepted; Accepted]) by (rewrite <- A2; vm_compute; reflexivity).
  split; [|rewrite <- A1; split; [vm_compute; reflexivity|]].
  - clear - EV. revert EV. generalize [Accepted; Accepted; Refused; Refused; Accepted; Accepted; Accepted; Accepted; Accepted; Accepted] as l. induction vs as [|v vs IH]; intros [|v' l] E; cbn [map] in E; [reflexivity|discriminate|discriminate|]. injection E as E1 E2. apply verdict_res_inj in E1. subst. f_equal. auto.
  - vm_compute. repeat constructor; intros X; discriminate X.
Qed.
