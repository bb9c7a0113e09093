(** Property C188: a TS Mixer on writers that fail as they like and are replaced at any time. *)
From Coq Require Import String.
From Verif Require Import Base.Go Base.GoFacts Base.IO Proofs.IOFacts Model.AmfTypes Model.Packet Model.Parsers Model.Ts
  Spec.Parsers Spec.H264 Spec.Codec Spec.Ts Spec.TsClock Proofs.Parsers Proofs.TsPackets Proofs.TsTables Proofs.TsMore Props.Parsers Props.H264 Props.Codec Props.Ts Props.TsMixer Props.Remux Props.TsClock
  Spec.FlvWriters Spec.Mixer Props.Mixer Spec.TsWriters.
Import ListNotations.
Local Open Scope list_scope.
Local Open Scope Z_scope.
Local Ltac Zify.zify_post_hook ::= Z.div_mod_to_equations.

(** Media are bytes, and the keys of metadata are distinct, as in a Go map; SetWriter takes any writer. *)
Definition any_call (o : mix_op) : Prop :=
  match o with
  | XMux p | XSaveAVC p | XSaveAAC p => media_bytes p
  | XMeta md => NoDup (map fst md)
  | _ => True
  end.
Lemma any_proper o : any_call o -> (exists w, o = XSetWriter w) \/ proper o.
Proof. destruct o; cbn; eauto. Qed.
Lemma proper_any o : proper o -> any_call o.
Proof. destruct o; cbn; tauto. Qed.
Lemma any_audio os : Forall any_call os -> audio_bytes os.
Proof.
  intros H. eapply Forall_impl; [|exact H]. intros o Ho. destruct o; try exact I; apply route_bytes in Ho; destruct (route_of p); try exact I; exact Ho.
Qed.
Lemma keeps_proper os : Forall any_call os -> Forall proper (filter keeps os).
Proof. induction 1 as [|o os H HF IH]; [constructor|]. cbn [filter]. destruct o; cbn [keeps]; try constructor; auto. Qed.
Lemma clock_keeps os : clock_after (filter keeps os) = clock_after os.
Proof. unfold clock_after. generalize clock0. induction os as [|o os IH]; intros k; [reflexivity|]. cbn [filter]. destruct o; cbn [keeps fold_left]; apply IH. Qed.
Lemma meta_keeps os : forall d, last_meta (filter keeps os) d = last_meta os d.
Proof. induction os as [|o os IH]; intros d; [reflexivity|]. cbn [filter]. destruct o; cbn [keeps last_meta]; apply IH. Qed.
Lemma plan_delivers cs : forall w w' ok, delivers cs w w' ok -> run_plan cs (Ok tt) w = (w', if ok then Ok tt else Err EWrite).
Proof.
  induction cs as [|c cs IH]; intros w w' ok H; inversion H as [|? ? ? ? ? E D|? ? ? n E]; subst; cbn [run_plan]; [reflexivity|..]; unfold write; rewrite E; [apply IH; exact D|reflexivity].
Qed.
Lemma delivers_exists cs : forall w, exists w' ok, delivers cs w w' ok.
Proof.
  induction cs as [|c cs IH]; intros w; [eexists _, _; constructor|]. destruct (w_script w (w_calls w)) as [n|] eqn:E; [eexists _, _; eapply De_failed; exact E|].
  destruct (IH (mkW (w_out w ++ c) (S (w_calls w)) (w_script w))) as (w' & ok & D). eexists _, _. eapply De_written; eassumption.
Qed.
Lemma packets_188 fuel : forall hi lo key first cc dts D, (first && key = true -> ~ 176 <= len D <= 183) -> Forall (fun c => len c = 188) (packets fuel hi lo key first cc dts D).
Proof.
  induction fuel as [|n IH]; intros hi lo key first cc dts D HN; destruct D as [|d0 D']; cbn [packets]; try constructor.
  - apply len_raw_packet; [rewrite len_cons; pose proof (len_nonneg D'); lia|exact HN].
  - apply IH. discriminate.
Qed.
Lemma delivers_fine cs : forall w, never_fails w -> exists w', delivers cs w w' true /\ w_out w' = w_out w ++ concat cs.
Proof.
  induction cs as [|c cs IH]; intros w HW; [exists w; split; [constructor|symmetry; apply app_nil_r]|].
  destruct (IH (mkW (w_out w ++ c) (S (w_calls w)) (w_script w)) HW) as (w' & D & O). exists w'. split; [apply De_written; [apply HW|exact D]|]. rewrite O. cbn [w_out concat]. symmetry. apply app_assoc.
Qed.
(** What a call writes does not depend on its writer. *)
Lemma step_writer x w o x0 w0 r0 : mix_inv x -> keeps o = true -> mix_step (x, buffer0) o = (x0, w0, r0) ->
  exists cs, Forall (fun c => len c = 188) cs /\ (writes o = false \/ r0 <> Ok tt -> cs = []) /\ w_out w0 = concat cs /\
    (o = XHeader -> r0 = Ok tt -> exists l, read_stream (concat cs) = Some l /\ map ts_pid l = [0x11; 0; 0x1001]) /\
    forall w1 ok, delivers cs w w1 ok -> exists x', mix_step (x, w) o = (x', w1, if ok then r0 else Err EWrite) /\ x_codec x' = x_codec x0.
Proof.
  intros HI HK E. pose proof HI as (HM & _).
  assert (NIL : forall x0 r0, mix_step (x, buffer0) o = (x0, buffer0, r0) -> mix_step (x, w) o = (x0, w, r0) -> o = XHeader /\ r0 = Panic \/ o <> XHeader ->
     exists cs, Forall (fun c => len c = 188) cs /\ (writes o = false \/ r0 <> Ok tt -> cs = []) /\ w_out buffer0 = concat cs /\
    (o = XHeader -> r0 = Ok tt -> exists l, read_stream (concat cs) = Some l /\ map ts_pid l = [0x11; 0; 0x1001]) /\
    forall w1 ok, delivers cs w w1 ok -> exists x', mix_step (x, w) o = (x', w1, if ok then r0 else Err EWrite) /\ x_codec x' = x_codec x0).
  { intros x1 r1 E1 E2 E3. exists []. split; [constructor|]. split; [reflexivity|]. split; [reflexivity|]. split; [intros -> ->; destruct E3 as [[_ X]|X]; [discriminate|contradiction]|].
    intros w1 ok D. inversion D; subst. exists x1. split; [exact E2|reflexivity]. }
  destruct o as [p|md|p|p| |p ms cts|w2]; cbn [mix_step] in *; try discriminate HK.
  - rewrite mux_result in E. destruct (codec_parse (x_codec x) p buffer0) as [c [wc r]] eqn:EC.
    destruct r as [[]|e| |]; try (injection E as <- <- <-; apply NIL; [cbn [mix_step]; rewrite mux_result, EC; reflexivity|cbn [mix_step]; rewrite mux_result, EC; reflexivity|right; discriminate]).
    rewrite mux_result, EC. pose proof (codec_accepts_can _ _ _ _ _ EC) as HC. set (q := set_media (w_out wc) p) in *. assert (HCq : can_mux q) by (apply set_media_can, HC).
    destruct (is_key q && (176 <=? len (mux_bytes q (x_dts x) (x_pts x))) && (len (mux_bytes q (x_dts x) (x_pts x)) <=? 183)) eqn:EK.
    + apply andb_prop in EK as [EK K3]. apply andb_prop in EK as [K1 K2].
      destruct (ts_mux_panic (x_muxer x) q (x_dts x) (x_pts x) buffer0 HM HCq K1 ltac:(lia)) as (m1 & X1 & _).
      rewrite X1 in E. injection E as <- <- <-. exists []. split; [constructor|]. split; [reflexivity|]. split; [reflexivity|]. split; [discriminate|].
      intros w1 ok D. inversion D; subst. destruct (ts_mux_panic (x_muxer x) q (x_dts x) (x_pts x) w1 HM HCq K1 ltac:(lia)) as (m2 & X2 & _). rewrite X2. eexists. split; reflexivity.
    + assert (HN : is_key q = true -> ~ 176 <= len (mux_bytes q (x_dts x) (x_pts x)) <= 183) by (intros K; rewrite K in EK; cbn [andb] in EK; lia).
      pose proof (ts_mux_ok (x_muxer x) q (x_dts x) (x_pts x) buffer0 HM HCq HN) as T0. destruct (ts_mux (x_muxer x) q (x_dts x) (x_pts x) buffer0) as [m0 wr0]. destruct T0 as (-> & _).
      rewrite run_plan_ok in E by (intros n; reflexivity). injection E as <- <- <-. exists (mux_packets (x_muxer x) q (x_dts x) (x_pts x)).
      split; [apply packets_188; cbn [andb]; exact HN|]. split; [intros [X|X]; [discriminate X|congruence]|]. split; [reflexivity|]. split; [discriminate|].
      intros w1 ok D. pose proof (ts_mux_ok (x_muxer x) q (x_dts x) (x_pts x) w HM HCq HN) as T1. destruct (ts_mux (x_muxer x) q (x_dts x) (x_pts x) w) as [m1 wr1]. destruct T1 as (-> & _).
      rewrite (plan_delivers _ _ _ _ D). eexists. split; reflexivity.
  - destruct (mix_save_metadata x md) as [x1 r1] eqn:ES. injection E as <- <- <-. apply NIL; try reflexivity; [cbn [mix_step]; rewrite ?ES; reflexivity..|right; discriminate].
  - destruct (mix_save_avc x p) as [[x1 p1] r1] eqn:ES. injection E as <- <- <-. apply NIL; [cbn [mix_step]; rewrite ?ES; reflexivity..|right; discriminate].
  - destruct (mix_save_aac x p) as [[x1 p1] r1] eqn:ES. injection E as <- <- <-. apply NIL; [cbn [mix_step]; rewrite ?ES; reflexivity..|right; discriminate].
  - rewrite set_header_tables in E. destruct (Z_le_dec (len (x_meta x)) 163) as [HLm|HLm].
    + destruct (tables_ok x HM HLm) as (k & s & a & b & ps & pa & pb & ba & bb & X & K & S1 & A1 & P1 & _). rewrite set_header_tables, X. rewrite X in E. rewrite run_plan_ok in E by (intros n; reflexivity). injection E as <- <- <-.
      pose proof (read_packet_len _ _ S1). pose proof (read_packet_len _ _ A1). pose proof (read_packet_len _ _ P1). exists [s; a; b]. split; [repeat constructor; assumption|]. split; [intros [Y|Y]; [discriminate Y|congruence]|]. split; [reflexivity|].
      split; [|intros w1 ok D; rewrite (plan_delivers _ _ _ _ D); eexists; split; reflexivity].
      intros _ _. eexists. cbn [concat]. split; [apply read_stream_cons; [assumption|exact S1|]; apply read_stream_cons; [assumption|exact A1|]; apply read_stream_cons; [assumption|exact P1|]; reflexivity|reflexivity].
    + destruct (tables_panic x HM ltac:(lia)) as (k & X). rewrite X in E. injection E as <- <- <-. apply NIL; [cbn [mix_step]; rewrite set_header_tables, X; reflexivity..|left; split; reflexivity].
  - destruct (mix_update x p ms cts) as [x1 r1] eqn:ES. injection E as <- <- <-. apply NIL; [cbn [mix_step]; rewrite ?ES; reflexivity..|right; discriminate].
Qed.
Lemma run_snoc all o : forall s x w rs x1 w1 r, mix_run s all = (x, w, rs) -> mix_step (x, w) o = (x1, w1, r) -> mix_run s (all ++ [o]) = (x1, w1, rs ++ [r]).
Proof.
  induction all as [|o1 b IH]; intros s x w rs x1 w1 r E ES; cbn [app mix_run] in *; [injection E as -> <-; rewrite ES; reflexivity|].
  destruct (mix_step s o1) as [s1 r1]. destruct (mix_run s1 b) as [s2 r2] eqn:E2. injection E as -> <-. rewrite (IH _ _ _ _ _ _ _ E2 ES). reflexivity.
Qed.
Lemma keeps_snoc all o : filter keeps (all ++ [o]) = filter keeps all ++ (if keeps o then [o] else []).
Proof. rewrite filter_app. reflexivity. Qed.
Lemma state_at all w0 x w rs0 : mix_run (new_tsmix, w0) all = (x, w, rs0) -> Forall any_call all ->
  mixer_used x /\ (x_pts x, x_dts x) = (k_pts (clock_after (filter keeps all)), k_dts (clock_after (filter keeps all))) /\ x_meta x = meta_of (last_meta (filter keeps all) None).
Proof.
  intros E HA. split; [exact (ex_intro _ all (ex_intro _ w0 (ex_intro _ w (ex_intro _ rs0 E))))|]. rewrite clock_keeps, meta_keeps. split; [exact (C161_clock all w0 x w rs0 (any_audio _ HA) E)|].
  exact (proj2 (run_kept all new_tsmix w0 x w rs0 false false None E eq_refl eq_refl)).
Qed.
Lemma proper_keeps o : proper o -> keeps o = true. Proof. destruct o; cbn; tauto. Qed.
Lemma call_any all w0 x w rs0 k : mix_run (new_tsmix, w0) all = (x, w, rs0) -> Forall any_call all -> knows (x_codec x) k ->
  forall o k' fs v, proper o -> call_mixed (filter keeps all) k o k' fs v ->
  exists cs, packets_for o fs v cs /\ forall w1 ok, delivers cs w w1 ok -> exists x', mix_step (x, w) o = (x', w1, ts_answer v ok) /\ knows (x_codec x') k'.
Proof.
  intros E HA HK o k' fs v Ho H. destruct (state_at _ _ _ _ _ E HA) as (HU & HT & HM). pose proof (mixer_ok _ HU) as HI.
  pose proof (call_at _ x buffer0 k HI HT HM (fun _ => eq_refl) HK o k' fs v Ho H) as C. destruct (mix_step (x, buffer0) o) as [[x0 wb] r0] eqn:E0. destruct C as (C1 & C2 & C3 & C4).
  destruct (step_writer x w o x0 wb r0 HI (proper_keeps _ Ho) E0) as (cs & S1 & S2 & S3 & S4 & S5). exists cs. split.
  - split; [exact S1|]. split; [intros [X|X]; [auto|apply S2; right; rewrite C1; destruct v; [congruence|discriminate..]]|]. split; [intros -> ->; apply S4; [reflexivity|exact C1]|].
    intros -> HL. rewrite <- C2 in HL. assert (E1 : mix_run (x, buffer0) [o] = (x0, wb, [r0])) by (cbn [mix_run]; rewrite E0; reflexivity).
    destruct (C132_stream_read_back [o] x buffer0 x0 wb [r0] HU (proper_writer _ (Forall_cons _ Ho (Forall_nil _))) (fun _ => eq_refl) E1) as (out & vs & aus & B1 & B2 & B3 & B4 & B5).
    { intros [X|[]]. rewrite C1 in X. discriminate X. } { exact HL. }
    cbn [w_out buffer0 app] in B1. rewrite S3 in B1. subst out. rewrite C2 in B4, B5. exists vs, aus. auto.
  - intros w1 ok D. destruct (S5 w1 ok D) as (x' & X1 & X2). exists x'. rewrite X2. split; [|exact C4]. rewrite X1, C1. destruct ok, v; reflexivity.
Qed.
Lemma ran_exists os : forall all w0 x w rs0 k, mix_run (new_tsmix, w0) all = (x, w, rs0) -> Forall any_call all -> Forall any_call os -> knows (x_codec x) k ->
  exists x' w' rs, mix_run (x, w) os = (x', w', rs) /\ ts_ran (filter keeps all) k w os w' rs.
Proof.
  induction os as [|o os IH]; intros all w0 x w rs0 k E HA HO HK; [eexists _, _, _; split; [reflexivity|constructor]|]. inversion HO as [|? ? H1 H2]; subst. cbn [mix_run].
  assert (HA' : Forall any_call (all ++ [o])) by (apply Forall_app; auto). destruct (any_proper o H1) as [[w2 ->]|HP].
  - cbn [mix_step]. destruct (IH (all ++ [XSetWriter w2]) w0 x w2 (rs0 ++ [Ok tt]) k (run_snoc all (XSetWriter w2) _ _ _ _ x w2 (Ok tt) E eq_refl) HA' H2 HK) as (x' & w' & rs & E' & R). rewrite E'. eexists _, _, _. split; [reflexivity|].
    rewrite keeps_snoc in R. cbn [keeps] in R. rewrite app_nil_r in R. constructor. exact R.
  - destruct (call_total (filter keeps all) k o (keeps_proper _ HA) HP) as (k' & fs & v & HC). destruct (call_any _ _ _ _ _ _ E HA HK o k' fs v HP HC) as (cs & P & S). destruct (delivers_exists cs w) as (w1 & ok & D). destruct (S w1 ok D) as (x1 & E1 & K1).
    rewrite E1. destruct (IH (all ++ [o]) w0 x1 w1 _ k' (run_snoc _ _ _ _ _ _ _ _ _ E E1) HA' H2 K1) as (x' & w' & rs & E' & R). rewrite E'. eexists _, _, _. split; [reflexivity|].
    rewrite keeps_snoc, (proper_keeps _ HP) in R. econstructor; eassumption.
Qed.
Lemma known_after all : forall w0 x w rs, mix_run (new_tsmix, w0) all = (x, w, rs) -> Forall any_call all -> exists k, learned (filter keeps all) k /\ knows (x_codec x) k.
Proof.
  induction all as [|o all IH] using rev_ind; intros w0 x w rs E HA.
  - injection E as <- <- <-. exists nothing. split; [constructor|exact new_knows].
  - apply Forall_app in HA as [HA Ho]. apply Forall_inv in Ho. destruct (mix_run (new_tsmix, w0) all) as [[x1 w1] rs1] eqn:E1. destruct (IH _ _ _ _ E1 HA) as (k & L & K).
    destruct (mix_step (x1, w1) o) as [[x2 w2] r2] eqn:E2. rewrite (run_snoc _ _ _ _ _ _ _ _ _ E1 E2) in E. injection E as <- <- <-. rewrite keeps_snoc. destruct (any_proper o Ho) as [[w3 ->]|HP].
    + cbn [keeps]. rewrite app_nil_r. injection E2 as <- <- <-. exists k. auto.
    + rewrite (proper_keeps _ HP). destruct (call_total (filter keeps all) k o (keeps_proper _ HA) HP) as (k' & fs & v & HC). destruct (call_any _ _ _ _ _ _ E1 HA K o k' fs v HP HC) as (cs & P & S). destruct (delivers_exists cs w1) as (w3 & ok & D). destruct (S w3 ok D) as (x3 & E3 & K3).
      rewrite E3 in E2. injection E2 as <- <- <-. exists k'. split; [econstructor; eassumption|exact K3].
Qed.
(** A working writer. *)
Lemma mixed_any b k os fs vs : mixed b k os fs vs -> forall all, b = filter keeps all -> Forall any_call all -> Forall proper os -> forall w0 x w rs0, mix_run (new_tsmix, w0) all = (x, w, rs0) -> never_fails w -> knows (x_codec x) k ->
  frames_sent (x, w) os = fs /\ snd (mix_run (x, w) os) = map verdict_res vs.
Proof.
  induction 1 as [b k|b k o k' fs v os fs' vs HC HM IH]; intros all EB HA HO w0 x w rs0 E HW HK; [split; reflexivity|]. inversion HO as [|? ? HO1 HO2]; subst.
  destruct (state_at _ _ _ _ _ E HA) as (HU & HT & HMt). pose proof (call_at _ x w k (mixer_ok _ HU) HT HMt HW HK o k' fs v HO1 HC) as H. destruct (mix_step (x, w) o) as [[x1 w1] r] eqn:ES. destruct H as (A1 & A2 & A3 & A4).
  destruct (IH (all ++ [o])) with (w0 := w0) (x := x1) (w := w1) (rs0 := rs0 ++ [r]) as [I1 I2]; try assumption.
  { rewrite keeps_snoc, (proper_keeps _ HO1). reflexivity. } { apply Forall_app. split; [exact HA|]. constructor; [apply proper_any; exact HO1|constructor]. } { exact (run_snoc _ _ _ _ _ _ _ _ _ E ES). }
  assert (EF : frames_sent (x, w) (o :: os) = frames_sent (x, w) [o] ++ frames_sent (fst (mix_step (x, w) o)) os) by (cbn [frames_sent]; rewrite app_nil_r; reflexivity).
  rewrite EF, ES. cbn [fst]. rewrite A2, I1. split; [reflexivity|]. cbn [mix_run map]. rewrite ES. destruct (mix_run (x1, w1) os) as [s2 rs]. cbn [snd] in *. rewrite A1, I2. reflexivity.
Qed.
Lemma run_app os : forall os' s x w rs, mix_run s os = (x, w, rs) -> mix_run s (os ++ os') = (fst (mix_run (x, w) os'), rs ++ snd (mix_run (x, w) os')).
Proof.
  induction os as [|o os IH]; intros os' s x w rs E; cbn [app mix_run] in *; [injection E as -> <-; destruct (mix_run (x, w) os'); reflexivity|].
  destruct (mix_step s o) as [s1 r1]. destruct (mix_run s1 os) as [s2 r2] eqn:E2. injection E as -> <-. rewrite (IH _ _ _ _ _ E2). reflexivity.
Qed.

Lemma learned_knows b k : learned b k -> Forall proper b -> forall x w rs, mix_run (new_tsmix, buffer0) b = (x, w, rs) -> never_fails w /\ knows (x_codec x) k.
Proof.
  induction 1 as [|b k o k' fs v L IH HC]; intros HP x w rs E.
  - injection E as <- <- <-. split; [intros n; reflexivity|exact new_knows].
  - apply Forall_app in HP as [HP Ho]. apply Forall_inv in Ho. destruct (mix_run (new_tsmix, buffer0) b) as [[x1 w1] rs1] eqn:E1. destruct (IH HP _ _ _ eq_refl) as [HW HK].
    pose proof (call_ok b x1 w1 buffer0 rs1 k E1 HP HW HK o k' fs v Ho HC) as C. destruct (mix_step (x1, w1) o) as [[x2 w2] r2] eqn:E2. rewrite (run_snoc _ _ _ _ _ _ _ _ _ E1 E2) in E. injection E as <- <- <-. destruct C as (_ & _ & A & B). auto.
Qed.

(** ** C188 *)
(** What the codecs know is determined by the calls. *)
Theorem C188_learned : forall os, Forall proper os -> exists! k, learned os k.
Proof.
  intros os HP. assert (HA : Forall any_call os) by (eapply Forall_impl; [|exact HP]; exact proper_any). destruct (mix_run (new_tsmix, buffer0) os) as [[x w] rs] eqn:E. destruct (known_after _ _ _ _ _ E HA) as (k & L & K).
  replace (filter keeps os) with os in L by (clear - HP; induction HP as [|o os H _ IH]; [reflexivity|]; cbn [filter]; rewrite (proper_keeps _ H), <- IH; reflexivity).
  exists k. split; [exact L|]. intros k' L'. exact (knows_fun _ _ _ K (proj2 (learned_knows _ _ L' HP _ _ _ E))).
Qed.
Print Assumptions C188_learned.
(** Whatever is called, and whatever its writers do, a new Mixer does as the relation says. *)
Theorem C188_mixer : forall os w0 x w rs, Forall any_call os -> mix_run (new_tsmix, w0) os = (x, w, rs) -> ts_ran [] nothing w0 os w rs.
Proof.
  intros os w0 x w rs HO E. destruct (ran_exists os [] w0 new_tsmix w0 [] nothing eq_refl (Forall_nil _) HO new_knows) as (x' & w' & rs' & E' & R). rewrite E in E'. injection E' as <- <- <-. exact R.
Qed.
Print Assumptions C188_mixer.
(** What a working writer is given until it is replaced, whatever became of the writers before it: the calls answer, and a
    demultiplexer finds the frames, that C179 says for a Mixer which never had another writer. *)
Theorem C188_segment : forall os os' w0 w1 x w rs, Forall any_call os -> Forall proper os' -> never_fails w1 ->
  mix_run (new_tsmix, w0) (os ++ XSetWriter w1 :: os') = (x, w, rs) ->
  exists k fs vs, learned (filter keeps os) k /\ mixed (filter keeps os) k os' fs vs /\
    skipn (S (length os)) rs = map (fun v => match v with Accepted => Ok tt | Refused => Err EOther | Crashed => Panic end) vs /\
    (~ In Crashed vs -> Forall (fun f => sf_key f = true -> 170 <= len (sf_media f)) fs ->
     exists out video audio, w_out w = w_out w1 ++ out /\ demultiplex 0x100 out = Some video /\ demultiplex 0x101 out = Some audio /\
       Forall2 carries (of_type 0 fs) video /\ Forall2 carries (of_type 1 fs) audio).
Proof.
  intros os os' w0 w1 x w rs HA HO HW E. destruct (mix_run (new_tsmix, w0) os) as [[x0 wa] rs0] eqn:E0. destruct (known_after _ _ _ _ _ E0 HA) as (k & L & K).
  destruct (mixed_exists (filter keeps os) k os' (keeps_proper _ HA) HO) as (fs & vs & M). exists k, fs, vs. split; [exact L|]. split; [exact M|].
  assert (E1 : mix_run (new_tsmix, w0) (os ++ [XSetWriter w1]) = (x0, w1, rs0 ++ [Ok tt])) by (exact (run_snoc os (XSetWriter w1) _ _ _ _ x0 w1 (Ok tt) E0 eq_refl)).
  assert (HA1 : Forall any_call (os ++ [XSetWriter w1])) by (apply Forall_app; split; [exact HA|constructor; [exact I|constructor]]).
  destruct (mixed_any _ _ _ _ _ M (os ++ [XSetWriter w1])) with (w0 := w0) (x := x0) (w := w1) (rs0 := rs0 ++ [Ok tt]) as [F1 F2]; try assumption. { rewrite keeps_snoc. cbn [keeps]. symmetry. apply app_nil_r. }
  change (XSetWriter w1 :: os') with ([XSetWriter w1] ++ os') in E. rewrite app_assoc, (run_app _ os' _ _ _ _ E1) in E. destruct (mix_run (x0, w1) os') as [[x2 w2] rs2] eqn:E2. cbn [fst snd] in *. injection E as <- <- <-.
  assert (LN : length rs0 = length os). { clear - E0. revert E0. generalize (new_tsmix, w0) as s. revert rs0. induction os as [|o os IH]; intros rs0 s E; cbn [mix_run] in E; [injection E as _ <-; reflexivity|]. destruct (mix_step s o) as [s1 r1]. destruct (mix_run s1 os) as [s2 r2] eqn:E2. injection E as -> <-. cbn [length]. f_equal. eapply IH. exact E2. }
  assert (SK : skipn (S (length os)) ((rs0 ++ [Ok tt]) ++ rs2) = rs2) by (replace (S (length os)) with (length (rs0 ++ [Ok tt])) by (rewrite app_length; cbn; lia); rewrite skipn_app, skipn_all, Nat.sub_diag; reflexivity).
  rewrite SK. split; [exact F2|]. intros HC HL. rewrite <- F1 in HL.
  assert (HN : ~ In Panic rs2). { rewrite F2. intros X. apply in_map_iff in X as (v & X1 & X2). destruct v; try discriminate. exact (HC X2). }
  destruct (state_at _ _ _ _ _ E1 HA1) as (HU & _).
  destruct (C132_stream_read_back _ _ _ _ _ _ HU (proper_writer _ HO) HW E2 HN HL) as (out & video & audio & B1 & B2 & B3 & B4 & B5). rewrite F1 in B4, B5. exists out, video, audio. auto.
Qed.
Print Assumptions C188_segment.

(** The history of C179 on a writer that fails at its fifth Write call (the tables took three); then a new writer is set and the history is made again. *)
Definition ex_fails : writer := mkW [] 0 (fun n => if (n =? 4)%nat then Some 7%nat else None).
Example C188_example : Forall any_call ex_calls /\ never_fails buffer0 /\
  exists x w rs, mix_run (new_tsmix, ex_fails) (ex_calls ++ XSetWriter buffer0 :: ex_calls) = (x, w, rs) /\ In (Err EWrite) (firstn (length ex_calls) rs) /\
    ~ In (Err EWrite) (skipn (length ex_calls) rs) /\ ~ In Panic rs /\ (0 < length (w_out w))%nat.
Proof.
  split; [eapply Forall_impl; [exact proper_any|exact (proj1 C179_example)]|]. split; [intros n; reflexivity|].
  destruct (mix_run (new_tsmix, ex_fails) (ex_calls ++ XSetWriter buffer0 :: ex_calls)) as [[x w] rs] eqn:E. exists x, w, rs. split; [reflexivity|].
  assert (ER : snd (mix_run (new_tsmix, ex_fails) (ex_calls ++ XSetWriter buffer0 :: ex_calls)) = rs) by (rewrite E; reflexivity).
  assert (EW : length (w_out (snd (fst (mix_run (new_tsmix, ex_fails) (ex_calls ++ XSetWriter buffer0 :: ex_calls))))) = length (w_out w)) by (rewrite E; reflexivity).
  clear E. vm_compute in ER. rewrite <- EW, <- ER. split; [vm_compute; tauto|]. split; [vm_compute; intuition discriminate|]. split; [vm_compute; intuition discriminate|]. vm_compute. lia.
Qed.
