(** C161: the times of the frames of a TS Mixer, from the history of calls alone. *)
From Coq Require Import String.
From Verif Require Import Base.Go Base.GoFacts Base.IO Proofs.IOFacts Model.AmfTypes Model.Packet Model.Parsers Model.Ts
  Spec.Parsers Spec.Ts Spec.TsClock Proofs.Parsers Proofs.TsPackets Proofs.TsTables Proofs.TsMore Props.Parsers Props.Ts Props.TsMixer Props.Remux Spec.Mixer.
Import ListNotations.
Local Open Scope list_scope.
Local Open Scope Z_scope.
Local Ltac Zify.zify_post_hook ::= Z.div_mod_to_equations.

Lemma tick_seen os : forall k, k_seen (fold_left tick os k) = k_seen k ++ map fst (mix_packets os).
Proof.
  induction os as [|o os IH]; intros k; cbn [fold_left]; [cbn; rewrite app_nil_r; reflexivity|]. rewrite IH.
  change (mix_packets (o :: os)) with (mix_packets ([o] ++ os)). unfold mix_packets. rewrite flat_map_app, map_app. fold (mix_packets os). rewrite app_assoc. f_equal.
  destruct o as [p|md|p|p| |p a b|w2]; cbn [tick k_seen flat_map app map fst]; rewrite ?app_nil_r; try reflexivity.
  cbv zeta. destruct (p_type p =? 0); [reflexivity|]. destruct (if p_type p =? 1 then _ else _); [|reflexivity]. destruct (_ <=? 900); reflexivity.
Qed.
Lemma mix_packets_seen os : seen_ops (map fst (mix_packets os)) = mix_packets os.
Proof.
  induction os as [|o os IH]; [reflexivity|]. change (mix_packets (o :: os)) with (mix_packets ([o] ++ os)). unfold mix_packets in *. rewrite flat_map_app, map_app. unfold seen_ops in *. rewrite map_app, IH. f_equal.
  destruct o; reflexivity.
Qed.
Lemma audio_bytes_ops os : audio_bytes os -> Forall (fun o => is_bytes (fst (fst o))) (aac_ops (mix_packets os)) /\ Forall is_bytes (mp3_ops (mix_packets os)).
Proof.
  induction 1 as [|o os H _ (I1 & I2)]; [split; constructor|]. change (mix_packets (o :: os)) with (mix_packets ([o] ++ os)). unfold mix_packets in *. rewrite flat_map_app. unfold aac_ops, mp3_ops in *. rewrite !flat_map_app.
  split; (apply Forall_app; split; [|assumption]); destruct o; cbn [flat_map app fst snd]; try constructor; destruct (route_of p); cbn [app]; repeat constructor; exact H.
Qed.

(** ** C161 *)
(** After every history of calls the Mixer's times are those of the clock. *)
Definition in_step (k : clock) (x : tsmix) : Prop :=
  x_pts x = k_pts k /\ x_dts x = k_dts k /\ s_dts (x_sync x) = k_start k /\ s_num (x_sync x) = k_frames k.
Lemma mix_step_clock x w o k : mix_inv x -> in_step k x ->
  codec_rate (x_codec x) = match rate_known (k_seen k) with Some r => Ok r | None => Err EOther end ->
  in_step (tick k o) (fst (fst (mix_step (x, w) o))).
Proof.
  intros HI (E1 & E2 & E3 & E4) ER. pose proof HI as (_ & HC & HS & _). destruct o as [p|md|p|p| |p a b|w2]; cbn [mix_step tick].
  - unfold mix_mux, mix_parse. destruct (codec_parse (x_codec x) p buffer0) as [c [w1 r]]. destruct r; try (repeat split; assumption). destruct (ts_mux _ _ _ _ _) as [m [w3 r3]]. repeat split; assumption.
  - repeat split; assumption.
  - unfold mix_save_avc, mix_save_header, mix_parse. cbn [x_codec set_types]. destruct (codec_parse (x_codec x) p buffer0) as [c [w1 r]]. destruct r; try (repeat split; assumption). destruct (ts_mux _ _ _ _ _) as [m [w3 r3]]. repeat split; assumption.
  - unfold mix_save_aac, mix_save_header, mix_parse. cbn [x_codec set_types]. destruct (codec_parse (x_codec x) p buffer0) as [c [w1 r]]. destruct r; try (repeat split; assumption). destruct (ts_mux _ _ _ _ _) as [m [w3 r3]]. repeat split; assumption.
  - destruct (set_header_muxer x w) as (m & E & _). destruct (mix_set_header x w) as [x' [w' r]]. injection E as ->. repeat split; assumption.
  - unfold mix_update. cbv zeta. assert (EU : forall z, u32 (z * 90) = (90 * z) mod 2 ^ 32) by (intros z; unfold u32; change (2 ^ 32) with 4294967296; f_equal; lia). rewrite !EU.
    change PktVideo with 0. change PktAudio with 1. destruct (p_type p =? 0); [repeat split; assumption|]. destruct (p_type p =? 1); [|repeat split; assumption].
    destruct (codec_rate (x_codec x)) as [rate| | |] eqn:EC; destruct (rate_known (k_seen k)) as [r|] eqn:ERK; try discriminate ER; [|repeat split; assumption].
    injection ER as ->. pose proof (codec_rate_range _ _ HC EC) as HR. set (t := (90 * a) mod 2 ^ 32). assert (Ht : 0 <= t < 4294967296) by (unfold t; change (2 ^ 32) with 4294967296; lia).
    pose proof (sync_step (x_sync x) _ t r HS ltac:(lia) Ht ltac:(lia)) as E. cbv zeta in E. rewrite Z.quot_div_nonneg in E by lia. rewrite E, E3, E4. change (1024 * 90000) with 92160000.
    destruct (Z.abs (k_start k + k_frames k * (92160000 / r) - t) <=? 900); repeat split; assumption.
  - repeat split; assumption.
Qed.
Lemma clock_snoc os o : clock_after (os ++ [o]) = tick (clock_after os) o.
Proof. unfold clock_after. rewrite fold_left_app. reflexivity. Qed.
Theorem C161_clock : forall os w x w' rs, audio_bytes os -> mix_run (new_tsmix, w) os = (x, w', rs) ->
  (x_pts x, x_dts x) = (k_pts (clock_after os), k_dts (clock_after os)).
Proof.
  intros os w x w' rs HB E. assert (G : in_step (clock_after os) x); [|destruct G as (-> & -> & _); reflexivity].
  revert x w' rs E. induction os as [|o os IH] using rev_ind; intros x w' rs E; [injection E as <- <- <-; repeat split|].
  apply Forall_app in HB as [HB HBo]. destruct (mix_run (new_tsmix, w) os) as [[x1 w1] rs1] eqn:E1.
  assert (EA : fst (fst (mix_run (new_tsmix, w) (os ++ [o]))) = fst (fst (mix_step (x1, w1) o))).
  { clear -E1. revert E1. generalize (new_tsmix, w) as s. revert rs1. induction os as [|o1 os IH]; intros rs1 s E1; cbn [app mix_run] in *.
    - injection E1 as -> <-. destruct (mix_step (x1, w1) o) as [[x2 w2] r]. reflexivity.
    - destruct (mix_step s o1) as [s1 r]. destruct (mix_run s1 os) as [[x3 w3] rs3] eqn:E3. injection E1 as -> -> <-. specialize (IH _ _ E3). destruct (mix_run s1 (os ++ [o])) as [[x4 w4] rs4]. exact IH. }
  rewrite E in EA. cbn [fst] in EA. subst x. rewrite clock_snoc. apply mix_step_clock.
  - pose proof (mix_run_inv os new_tsmix w new_mix_inv) as H. rewrite E1 in H. exact H.
  - exact (IH HB _ _ _ eq_refl).
  - pose proof (mix_run_codec os new_tsmix w) as H. rewrite E1 in H. cbn [fst] in H. rewrite H. change (x_codec new_tsmix) with new_codec. destruct (audio_bytes_ops os HB) as (B1 & B2).
    rewrite C28_sample_rate_partial by assumption. unfold rate_known, clock_after. rewrite tick_seen. cbn [k_seen clock0 app]. rewrite mix_packets_seen.
    destruct (aac_ops (mix_packets os)), (mp3_ops (mix_packets os)); reflexivity.
Qed.
Print Assumptions C161_clock.

(** So the frame that Mux sends next, read back from the bytes written, carries the times of the clock. A key frame has
    at least 170 bytes (C132). *)
Theorem C161_stamps : forall os w x w1 rs p x2 w2, audio_bytes os -> mix_run (new_tsmix, w) os = (x, w1, rs) -> never_fails w1 ->
  mix_step (x, w1) (XMux p) = (x2, w2, Ok tt) -> long_keys (frames_sent (x, w1) [XMux p]) ->
  exists out e, w_out w2 = w_out w1 ++ out /\
    ((p_type p = 0 /\ demultiplex 0x100 out = Some [e] /\ demultiplex 0x101 out = Some []) \/
     (p_type p <> 0 /\ demultiplex 0x100 out = Some [] /\ demultiplex 0x101 out = Some [e])) /\
    option_map snd (pes_pts e) = Some (k_pts (clock_after os)) /\
    option_map snd (pes_dts e) = if (p_type p =? 0) && negb (k_pts (clock_after os) =? k_dts (clock_after os)) then Some (k_dts (clock_after os)) else None.
Proof.
  intros os w x w1 rs p x2 w2 HB E HW ES HL. pose proof (C161_clock os w x w1 rs HB E) as HT. injection HT as HT1 HT2. rewrite <- HT1, <- HT2.
  assert (ER : mix_run (x, w1) [XMux p] = (x2, w2, [Ok tt])) by (cbn [mix_run]; rewrite ES; reflexivity).
  destruct (C132_stream_read_back [XMux p] x w1 x2 w2 [Ok tt]) as (out & vs & aus & F1 & F2 & F3 & F4 & F5).
  { eexists _, _, _, _; exact E. } { repeat constructor. } { exact HW. } { exact ER. } { intros [H|[]]; discriminate H. } { exact HL. }
  clear HL. cbn [mix_step] in ES. cbn [frames_sent fst snd] in F4, F5. destruct (mix_mux x p w1) as [[x3 p'] [w3 r]] eqn:EM. injection ES as -> -> ->. rewrite app_nil_r in F4, F5. cbn [of_type filter sf_type] in F4, F5.
  assert (HTy : p_type p = 0 \/ p_type p = 1).
  { unfold mix_mux, mix_parse in EM. destruct (codec_parse (x_codec x) p buffer0) as [c [wc r]] eqn:EC. destruct r as [[]| | |]; try discriminate EM. destruct (codec_accepts_can _ _ _ _ _ EC) as [H|[H _]]; [right|left]; exact H. }
  exists out. destruct HTy as [HTy|HTy]; rewrite HTy in *.
  - change (0 =? 0) with true in F4. change (0 =? 1) with false in F5. inversion F4 as [|f e ? ? HCa F4']; subst. inversion F4'; subst. inversion F5; subst. exists e. split; [exact F1|]. split; [left; auto|].
    destruct HCa as (_ & _ & C3 & C4). split; assumption.
  - change (1 =? 0) with false in F4. change (1 =? 1) with true in F5. inversion F5 as [|f e ? ? HCa F5']; subst. inversion F5'; subst. inversion F4; subst. exists e. split; [exact F1|]. split; [right; split; [lia|auto]|].
    destruct HCa as (_ & _ & C3 & C4). split; assumption.
Qed.
Print Assumptions C161_stamps.

(** Frames sent before any Update carry time zero. *)
Theorem C161_before_update : forall os, Forall (fun o => match o with XUpdate _ _ _ => False | _ => True end) os ->
  k_pts (clock_after os) = 0 /\ k_dts (clock_after os) = 0.
Proof.
  intros os H. unfold clock_after. assert (G : forall k, k_pts (fold_left tick os k) = k_pts k /\ k_dts (fold_left tick os k) = k_dts k).
  { induction H as [|o os Ho _ IH]; intros k; cbn [fold_left]; [auto|]. destruct (IH (tick k o)) as (-> & ->). destruct o; try contradiction; auto. }
  apply G.
Qed.
Print Assumptions C161_before_update.
(** A 44100 Hz stream: two audio times a frame apart (23 ms given, 2089 ticks sent), then one after a gap, then a video
    time with a composition offset; and the frames sent in the history of C132. *)
Example C161_example :
  let a t b := ex_aac t b in let v := body 0 [] in
  let os := [XSaveAAC (a 0 [0x12; 0x10]); XUpdate (a 1 [1]) 0 0; XUpdate (a 1 [1]) 23 0] in
  audio_bytes (XHeader :: remuxed ex_history) /\
  map (fun os => (k_pts (clock_after os), k_dts (clock_after os))) [[]; os; os ++ [XUpdate (a 1 [1]) 1000 0]; os ++ [XUpdate v 1000 40]] =
    [(0, 0); (2089, 2089); (90000, 90000); (93600, 90000)] /\
  exists x w1 rs x2 w2, mix_run (new_tsmix, buffer0) os = (x, w1, rs) /\ never_fails w1 /\ mix_step (x, w1) (XMux (a 1 [1])) = (x2, w2, Ok tt) /\
    long_keys (frames_sent (x, w1) [XMux (a 1 [1])]).
Proof.
  cbv zeta. split; [repeat constructor; vm_compute; repeat constructor; discriminate|]. split; [vm_compute; reflexivity|].
  destruct (mix_run (new_tsmix, buffer0) _) as [[x w1] rs] eqn:E. exists x, w1, rs.
  vm_compute in E. injection E as <- <- <-. match goal with |- context [mix_step ?s ?o] => destruct (mix_step s o) as [[x2 w2] r] eqn:E2 end. exists x2, w2.
  split; [reflexivity|]. split; [intros n; reflexivity|]. vm_compute in E2. injection E2 as <- <- <-. split; [reflexivity|]. vm_compute. repeat constructor; discriminate.
Qed.
