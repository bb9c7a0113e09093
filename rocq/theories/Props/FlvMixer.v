(** Property C182: what an FLV Mixer writes and answers, from the history of calls alone. *)
From Coq Require Import String.
From Verif Require Import Base.Go Base.GoFacts Base.IO Proofs.IOFacts Model.AmfTypes Model.Amf3 Model.Amf0 Model.Metadata Model.Packet Model.Flv
  Spec.Amf Spec.Gop Spec.Flv Spec.Codec Spec.Amf3Ref Spec.AmfAll Spec.Command Spec.AmfRaw Proofs.AmfFacts Proofs.Metadata Proofs.Gop Proofs.Flv Props.Command Props.AmfRaw Spec.FlvMixer.
Import ListNotations.
Local Open Scope list_scope.
Local Open Scope Z_scope.
Local Ltac Zify.zify_post_hook ::= Z.div_mod_to_equations.

(** Data are bytes, times are uint32, and the writer stays. *)
Definition proper_call (o : flv_op) : Prop :=
  match o with
  | FMux p pts => is_bytes (p_data p) /\ 0 <= pts < 2 ^ 32
  | FSaveAVC p | FSaveAAC p => is_bytes (p_data p)
  | FSetWriter _ => False
  | _ => True
  end.

Lemma carried_select p d v : is_bytes (p_data p) -> carried p d v ->
  match v with Accepted => mux_select p = Ok (tag_number (p_type p), d) | Refused => exists e, mux_select p = Err e | Crashed => mux_select p = Panic end.
Proof.
  intros HB H. unfold mux_select, tag_number. change PktVideo with 0. change PktAudio with 1. change PktMetadata with 2.
  pose proof (C180_del _ HB) as D. destruct (C180_unique _ HB) as (_ & U2 & U3 & _).
  destruct H as [[E|E]|d E W|E N1 N2|E S|E]; try (rewrite E; cbn [Z.eqb Pos.eqb]); try reflexivity.
  - destruct (snd (del_meta_header decode0 (fresh (bytes_reader [])) (p_data p))) as [q|e| |]; [cbn [bind]; rewrite (U3 _ _ W D); reflexivity| | |contradiction].
    + destruct D as [D _]. destruct W as [q W _|s W _]; elim (D _ W).
    + destruct W as [q W _|s W _]; elim (U2 _ W D).
  - destruct (snd (del_meta_header decode0 (fresh (bytes_reader [])) (p_data p))) as [q|e| |]; [|exists e; reflexivity|contradiction|contradiction]. destruct D as [q W _|s W _]; elim (N1 _ W).
  - destruct (snd (del_meta_header decode0 (fresh (bytes_reader [])) (p_data p))) as [q|e| |]; [|elim (proj2 D S)|reflexivity|contradiction]. destruct D as [q W _|s W _]; elim (U2 _ W S).
  - exists EOther. replace (p_type p =? 0) with false by lia. replace (p_type p =? 1) with false by lia. replace (p_type p =? 2) with false by lia. reflexivity.
Qed.
Lemma carried_exists p : is_bytes (p_data p) -> exists d v, carried p d v.
Proof.
  intros HB. assert (C : (p_type p = 0 \/ p_type p = 1) \/ p_type p = 2 \/ ~ 0 <= p_type p <= 2) by lia. destruct C as [C|[C|C]]; [eexists _, _; apply Ca_media; exact C| |eexists _, _; apply Ca_other; exact C].
  pose proof (C180_del _ HB) as D. destruct (snd (del_meta_header decode0 (fresh (bytes_reader [])) (p_data p))) as [q|e| |]; [| | |contradiction]; eexists _, _.
  - apply Ca_metadata; eassumption.
  - destruct D. apply Ca_no_text; assumption.
  - apply Ca_refers; assumption.
Qed.
Lemma tag_bytes ty time d : 0 <= ty < 256 -> 0 <= time < 2 ^ 32 -> concat (tag_calls ty d time) = piece_bytes (Tag ty time d).
Proof.
  intros H1 H2. unfold tag_calls. cbn [concat piece_bytes]. rewrite app_nil_r. unfold hdr11, be24. rewrite <- !app_assoc. unfold be32 at 1 2. cbn [app]. change (2 ^ 24) with 16777216. change (2 ^ 32) with 4294967296 in H2. pose proof (len_nonneg d). unfold u8.
  repeat apply cons_eq; try lia. reflexivity.
Qed.
Lemma mux_carried m p pts w d v : wf_mux m -> 0 <= pts < 2 ^ 32 -> never_fails w -> is_bytes (p_data p) -> carried p d v ->
  exists m' p' w' r, mux m p pts w = (m', p', (w', r)) /\ wf_mux m' /\ never_fails w' /\ w_out w' = w_out w ++ file_bytes (tag_of p pts d v) /\ answers r v.
Proof.
  intros HM HP HW HB HC. pose proof (carried_select _ _ _ HB HC) as S. destruct v.
  - destruct (mux_ok m p pts w _ _ HM HP S (tag_number_range _)) as (m' & M1 & M2). rewrite M2, run_plan_ok by exact HW. eexists _, _, _, _. split; [reflexivity|]. split; [exact M1|]. split; [exact HW|]. split; [|reflexivity].
    cbn [w_out]. rewrite (tag_bytes _ _ _ (tag_number_range _) HP). unfold file_bytes. cbn [tag_of map concat]. rewrite app_nil_r. reflexivity.
  - destruct S as [e S]. rewrite mux_not_ok by (rewrite S; discriminate). rewrite S. eexists _, _, _, _. split; [reflexivity|]. split; [exact HM|]. split; [exact HW|]. split; [symmetry; apply app_nil_r|exists e; reflexivity].
  - rewrite mux_not_ok by (rewrite S; discriminate). rewrite S. eexists _, _, _, _. split; [reflexivity|]. split; [exact HM|]. split; [exact HW|]. split; [symmetry; apply app_nil_r|reflexivity].
Qed.
Lemma pool_written md : exists n r,
  (w* _ := encode0 (TStr set_data_frame) in w* _ := encode0 (TStr on_metadata) in encode0 (TObj md)) buffer0 =
    (mkW (frame_header ++ ([2; 0; 10] ++ str "onMetaData") ++ fst (written0 (TObj md))) n (fun _ => None), r) /\
  if supported (TObj md) then exists c, r = Ok c else r = Err EOther.
Proof.
  unfold wbind at 1. destruct (C181_encode (TStr set_data_frame) buffer0 (fun _ => eq_refl)) as (n1 & E1). rewrite E1. change (snd (written0 (TStr set_data_frame))) with true. cbv iota. cbn [w_out w_script buffer0].
  unfold wbind. match goal with |- context [encode0 (TStr on_metadata) ?w] => destruct (C181_encode (TStr on_metadata) w (fun _ => eq_refl)) as (n2 & E2) end. rewrite E2. change (snd (written0 (TStr on_metadata))) with true. cbv iota. cbn [w_out w_script].
  match goal with |- context [encode0 (TObj md) ?w] => destruct (C181_encode (TObj md) w (fun _ => eq_refl)) as (n3 & E3) end. rewrite E3. cbn [w_out w_script]. rewrite C181_fails_iff.
  eexists n3, _. split; [reflexivity|]. destruct (supported (TObj md)); [eexists; reflexivity|reflexivity].
Qed.
Lemma metadata_written m md : wf_mux m -> exists m' r, mx_metadata m md = (m', r) /\ wf_mux m' /\
  if supported (TObj md) then r = Ok (file_bytes [Tag 18 0 ([2; 0; 10] ++ str "onMetaData" ++ fst (written0 (TObj md)))]) else r = Err EOther.
Proof.
  intros HM. unfold mx_metadata. destruct (pool_written md) as (n & r & E & HR). rewrite E. destruct (supported (TObj md)).
  - destruct HR as [c ->]. cbn [w_out]. set (B := ([2; 0; 10] ++ str "onMetaData") ++ fst (written0 (TObj md))).
    assert (HP : payload (mkP PktMetadata 0 0 0 None (frame_header ++ B) None) B) by (apply Pl_meta_rtmp; reflexivity).
    destruct (mux_ok m _ 0 buffer0 _ _ HM ltac:(lia) (select_payload _ _ HP) (tag_number_range _)) as (m' & M1 & M2). rewrite M2, run_plan_ok by apply never_fails_buffer0.
    eexists _, _. split; [reflexivity|]. split; [exact M1|]. cbn [w_out buffer0 app p_type]. f_equal. change (tag_number PktMetadata) with 18. rewrite tag_bytes by lia. unfold file_bytes. cbn [map concat]. rewrite app_nil_r. reflexivity.
  - subst r. eexists _, _. split; [reflexivity|]. split; [exact HM|reflexivity].
Qed.

Record inv (h : list flv_op) (x : mixer) : Prop := {
  in_mux : wf_mux (mx_muxer x);
  in_types : 0 <= mx_types x < 4;
  in_video : Z.testbit (mx_types x) 0 = existsb sel_avc h;
  in_audio : Z.testbit (mx_types x) 1 = existsb sel_aac h;
  in_meta : forall l, kept (latest sel_meta h) l -> mx_meta x = file_bytes l;
  in_avc : forall l, kept (latest sel_avc h) l -> mx_avc x = file_bytes l;
  in_aac : forall l, kept (latest sel_aac h) l -> mx_aac x = file_bytes l }.
Lemma inv_new : inv [] new_mixer.
Proof.
  constructor; [|split; [discriminate|reflexivity]|reflexivity|reflexivity| | |]; try (intros l H; cbn [latest rev find] in H; inversion H; reflexivity).
  split; [repeat eexists|exists 0; split; reflexivity].
Qed.
Lemma file_app a b : file_bytes (a ++ b) = file_bytes a ++ file_bytes b.
Proof. unfold file_bytes. rewrite map_app, concat_app. reflexivity. Qed.
Lemma saved_packet (o : flv_op) p l : o = FSaveAVC p \/ o = FSaveAAC p -> kept (Some o) l -> exists d v, carried p d v /\ l = tag_of p 0 d v.
Proof. intros HO H. inversion H as [|o' q d v HO' HC|md]; subst; [|destruct HO; discriminate]. exists d, v. destruct HO as [-> | ->], HO' as [X|X]; inversion X; subst; auto. Qed.
Lemma call_step h x w o out v : inv h x -> proper_call o -> never_fails w -> call_flv h o out v ->
  exists x' w' r, flv_step (x, w) o = (x', w', r) /\ inv (h ++ [o]) x' /\ never_fails w' /\ w_out w' = w_out w ++ file_bytes out /\ answers r v.
Proof.
  intros [Iw It Iv Ia Im Ic Ik] HO HW H. inversion H as [p pts d v1 HC|meta avc aac K1 K2 K3|md|o1 p d v1 HS HC]; subst; cbn [flv_step].
  - destruct HO as [HB HP]. unfold mixer_mux. destruct (mux_carried (mx_muxer x) p pts w d v Iw HP HW HB HC) as (m' & p' & w' & r & M1 & M2 & M3 & M4 & M5). rewrite M1.
    eexists _, _, _. split; [reflexivity|]. split; [|split; [exact M3|]; split; [exact M4|exact M5]].
    constructor; cbn [mx_muxer mx_types mx_meta mx_avc mx_aac]; rewrite ?existsb_snoc, ?latest_snoc; cbn [sel_meta sel_avc sel_aac]; rewrite ?orb_false_r; assumption.
  - unfold set_flv_header. destruct (mx_header_ok (mx_muxer x) (mx_types x) Iw It) as (m' & M1 & M2). rewrite M2.
    assert (PL : planned (w* _ := write (flv_signature (Z.testbit (mx_types x) 0) (Z.testbit (mx_types x) 1)) in w* _ := write_cache (mx_meta x) in w* _ := write_cache (mx_avc x) in write_cache (mx_aac x))
       (header_calls (existsb sel_avc h) (existsb sel_aac h) x) (Ok tt)).
    { rewrite Iv, Ia. unfold header_calls. apply (planned_bind _ _ _ tt _ (Ok tt)); [apply planned_write|]. apply (planned_bind _ _ _ tt _ (Ok tt)); [apply write_cache_plan|].
      apply (planned_bind _ _ _ tt _ (Ok tt)); [apply write_cache_plan|]. apply write_cache_plan. }
    rewrite (PL w), run_plan_ok by exact HW. eexists _, _, _. split; [reflexivity|]. split; [|split; [exact HW|]; split; [|reflexivity]].
    + constructor; cbn [mx_muxer mx_types mx_meta mx_avc mx_aac]; rewrite ?existsb_snoc, ?latest_snoc; cbn [sel_meta sel_avc sel_aac]; rewrite ?orb_false_r; assumption.
    + cbn [w_out]. f_equal. unfold header_calls. rewrite !concat_app, !concat_cache, (Im _ K1), (Ic _ K2), (Ik _ K3). change (Start ?a ?b :: ?l) with ([Start a b] ++ l). rewrite !file_app. f_equal.
  - destruct (metadata_written (mx_muxer x) md Iw) as (m' & r & M1 & M2 & M3). unfold save_metadata. rewrite M1.
    assert (Q : exists x', (match r with Ok b => (mkMix m' b (mx_avc x) (mx_aac x) (mx_types x), Ok tt) | Err e => (mkMix m' [] (mx_avc x) (mx_aac x) (mx_types x), Err e)
      | Panic => (mkMix m' [] (mx_avc x) (mx_aac x) (mx_types x), Panic) | OutOfFuel => (mkMix m' [] (mx_avc x) (mx_aac x) (mx_types x), OutOfFuel) end) = (x', if supported (TObj md) then Ok tt else Err EOther) /\
      x' = mkMix m' (if supported (TObj md) then file_bytes [Tag 18 0 ([2; 0; 10] ++ str "onMetaData" ++ fst (written0 (TObj md)))] else []) (mx_avc x) (mx_aac x) (mx_types x)).
    { destruct (supported (TObj md)); subst r; eexists; split; reflexivity. }
    destruct Q as (x' & Q1 & Q2). rewrite Q1. eexists _, _, _. split; [reflexivity|]. split; [|split; [exact HW|]; split; [symmetry; apply app_nil_r|]].
    + subst x'. constructor; cbn [mx_muxer mx_types mx_meta mx_avc mx_aac]; rewrite ?existsb_snoc, ?latest_snoc; cbn [sel_meta sel_avc sel_aac]; rewrite ?orb_false_r; try assumption.
      intros l K. inversion K as [|o q d v1 [X|X]|md']; subst; try discriminate. destruct (supported (TObj md)); reflexivity.
    + destruct (supported (TObj md)); [reflexivity|exists EOther; reflexivity].
  - assert (HB : is_bytes (p_data p)) by (destruct HS as [-> | ->]; exact HO).
    destruct (mux_carried (mx_muxer x) p 0 buffer0 d v Iw ltac:(lia) never_fails_buffer0 HB HC) as (m' & p' & w' & r & M1 & M2 & M3 & M4 & M5). cbn [w_out buffer0 app] in M4.
    assert (KEEP : forall l, kept (Some o) l -> w_out w' = file_bytes l).
    { intros l K. destruct (saved_packet _ _ _ HS K) as (d' & v' & C' & ->). destruct (mux_carried (mx_muxer x) p 0 buffer0 d' v' Iw ltac:(lia) never_fails_buffer0 HB C') as (m2 & p2 & w2 & r2 & N1 & _ & _ & N4 & _). rewrite M1 in N1. inversion N1; subst. exact N4. }
    destruct HS as [-> | ->]; cbn [flv_step]; unfold save_avc_header, save_aac_header; rewrite M1; eexists _, _, _; (split; [reflexivity|]); (split; [|split; [exact HW|]; split; [symmetry; apply app_nil_r|exact M5]]).
    + destruct (types_video _ It) as (T1 & T2 & T3). constructor; cbn [mx_muxer mx_types mx_meta mx_avc mx_aac]; rewrite ?existsb_snoc, ?latest_snoc; cbn [sel_meta sel_avc sel_aac]; rewrite ?orb_false_r, ?orb_true_r; try assumption. rewrite T3; assumption.
    + destruct (types_audio _ It) as (T1 & T2 & T3). constructor; cbn [mx_muxer mx_types mx_meta mx_avc mx_aac]; rewrite ?existsb_snoc, ?latest_snoc; cbn [sel_meta sel_avc sel_aac]; rewrite ?orb_false_r, ?orb_true_r; try assumption. rewrite T3; assumption.
Qed.
Lemma mixed_ok h os out vs : flv_mixed h os out vs -> forall x w, inv h x -> Forall proper_call os -> never_fails w ->
  exists x' w' rs, flv_run (x, w) os = (x', w', rs) /\ w_out w' = w_out w ++ file_bytes out /\ Forall2 answers rs vs.
Proof.
  induction 1 as [h|h o out v os out' vs HC HM IH]; intros x w HI HP HW; [eexists _, _, _; split; [reflexivity|]; split; [symmetry; apply app_nil_r|constructor]|].
  inversion HP as [|? ? P1 P2]; subst. destruct (call_step h x w o out v HI P1 HW HC) as (x1 & w1 & r & E1 & I1 & W1 & O1 & A1). destruct (IH x1 w1 I1 P2 W1) as (x2 & w2 & rs & E2 & O2 & A2).
  cbn [flv_run]. rewrite E1, E2. eexists _, _, _. split; [reflexivity|]. split; [rewrite O2, O1, file_app, app_assoc; reflexivity|constructor; assumption].
Qed.
(** ** The relation is total and functional *)
Lemma kept_exists h f : Forall proper_call h -> (forall o, f o = true -> sel_meta o || sel_avc o || sel_aac o = true) -> exists l, kept (latest f h) l.
Proof.
  intros HP HF. unfold latest. destruct (find f (rev h)) as [o|] eqn:E; [|exists []; constructor]. apply find_some in E as [E1 E2]. apply in_rev in E1. pose proof (proj1 (Forall_forall _ _) HP _ E1) as Ho. specialize (HF _ E2).
  destruct o as [md|p|p|p pts| |w]; cbn in HF; try discriminate; [eexists; constructor| |]; destruct (carried_exists p Ho) as (d & v & HC); eexists; (eapply Kp_header; [|exact HC]); auto.
Qed.
Lemma call_exists h o : Forall proper_call h -> proper_call o -> exists out v, call_flv h o out v.
Proof.
  intros HP HO. destruct o as [md|p|p|p pts| |w]; cbn [proper_call] in HO; [eexists _, _; constructor| | | | |contradiction].
  - destruct (carried_exists p HO) as (d & v & HC). eexists _, _. eapply Fl_save; [left; reflexivity|exact HC].
  - destruct (carried_exists p HO) as (d & v & HC). eexists _, _. eapply Fl_save; [right; reflexivity|exact HC].
  - destruct HO as [HB _]. destruct (carried_exists p HB) as (d & v & HC). eexists _, _. apply Fl_mux. exact HC.
  - destruct (kept_exists h sel_meta HP) as (a & Ha). { intros o E. rewrite E. reflexivity. } destruct (kept_exists h sel_avc HP) as (b & Hb). { intros o E. rewrite E, orb_true_r. reflexivity. } destruct (kept_exists h sel_aac HP) as (c & Hc). { intros o E. rewrite E, orb_true_r. reflexivity. }
    eexists _, _. apply (Fl_header _ _ _ _ Ha Hb Hc).
Qed.
Lemma mixed_exists h os : Forall proper_call h -> Forall proper_call os -> exists out vs, flv_mixed h os out vs.
Proof.
  revert h. induction os as [|o os IH]; intros h HH HP; [exists [], []; constructor|]. inversion HP as [|? ? P1 P2]; subst. destruct (call_exists h o HH P1) as (out & v & HC).
  destruct (IH (h ++ [o])) as (out' & vs & HM); [apply Forall_app; auto|exact P2|]. exists (out ++ out'), (v :: vs). econstructor; eassumption.
Qed.
Lemma carried_fun p d v d' v' : is_bytes (p_data p) -> carried p d v -> carried p d' v' -> d = d' /\ v = v'.
Proof.
  intros HB H H'. pose proof (carried_select _ _ _ HB H) as S. pose proof (carried_select _ _ _ HB H') as S'.
  assert (E : v = v') by (destruct v, v'; try reflexivity; repeat match goal with X : exists _, _ |- _ => destruct X as [? X] end; congruence). subst v'. split; [|reflexivity].
  destruct v; [rewrite S in S'; injection S' as ->; reflexivity| |]; inversion H; subst; inversion H'; reflexivity.
Qed.
Lemma kept_fun h f l l' : Forall proper_call h -> kept (latest f h) l -> kept (latest f h) l' -> l = l'.
Proof.
  intros HP. unfold latest. destruct (find f (rev h)) as [o|] eqn:E; [|intros H H'; inversion H; inversion H'; reflexivity]. apply find_some in E as [E1 _]. apply in_rev in E1. pose proof (proj1 (Forall_forall _ _) HP _ E1) as Ho.
  intros H H'. inversion H as [|o1 p d v HS HC|md]; subst.
  - destruct (saved_packet _ _ _ HS H') as (d' & v' & HC' & ->). assert (HB : is_bytes (p_data p)) by (destruct HS as [-> | ->]; exact Ho). destruct (carried_fun _ _ _ _ _ HB HC HC') as [-> ->]. reflexivity.
  - inversion H' as [|o1 p d v [X|X]|md']; subst; try discriminate. reflexivity.
Qed.
Lemma call_fun h o out v out' v' : Forall proper_call h -> proper_call o -> call_flv h o out v -> call_flv h o out' v' -> out = out' /\ v = v'.
Proof.
  intros HP HO H H'. inversion H as [p pts d v1 HC|meta avc aac K1 K2 K3|md|o1 p d v1 HS HC]; subst.
  - inversion H' as [p' pts' d' v1 HC'| | |o1 p' d' v1 [X|X]]; subst; try discriminate. destruct (carried_fun _ _ _ _ _ (proj1 HO) HC HC') as [-> ->]. auto.
  - inversion H' as [|meta' avc' aac' L1 L2 L3| |o1 p' d' v1 [X|X]]; subst; try discriminate. rewrite (kept_fun _ _ _ _ HP K1 L1), (kept_fun _ _ _ _ HP K2 L2), (kept_fun _ _ _ _ HP K3 L3). auto.
  - inversion H' as [| | |o1 p' d' v1 [X|X]]; subst; try discriminate. auto.
  - assert (HB : is_bytes (p_data p)) by (destruct HS as [-> | ->]; exact HO). inversion H' as [p' pts' d' v1 HC'|meta' avc' aac' L1 L2 L3|md|o1 p' d' v1 HS' HC']; subst; try (destruct HS; discriminate).
    assert (p' = p) by (destruct HS as [-> | ->], HS' as [X|X]; inversion X; reflexivity). subst p'. destruct (carried_fun _ _ _ _ _ HB HC HC') as [_ ->]. auto.
Qed.
Lemma mixed_fun h os out vs : flv_mixed h os out vs -> forall out' vs', Forall proper_call h -> Forall proper_call os -> flv_mixed h os out' vs' -> out = out' /\ vs = vs'.
Proof.
  induction 1 as [h|h o out v os out1 vs HC HM IH]; intros out' vs' HH HP H'; inversion H' as [|? ? ? ? ? ? ? HC' HM']; subst; [auto|]. inversion HP as [|? ? P1 P2]; subst.
  destruct (call_fun _ _ _ _ _ _ HH P1 HC HC') as [-> ->]. destruct (IH _ _ (proj2 (Forall_app _ _ _) (conj HH (Forall_cons _ P1 (Forall_nil _)))) P2 HM') as [-> ->]. auto.
Qed.

(** ** C182 *)
(** The relation determines what is written and answered, for every history. *)
Theorem C182_relation : forall os, Forall proper_call os -> exists! x, flv_mixed [] os (fst x) (snd x).
Proof.
  intros os HO. destruct (mixed_exists [] os (Forall_nil _) HO) as (out & vs & H). exists (out, vs). split; [exact H|]. intros [out' vs'] H'. destruct (mixed_fun _ _ _ _ H _ _ (Forall_nil _) HO H') as [E1 E2]. cbn [fst snd] in *. congruence.
Qed.
Print Assumptions C182_relation.
(** Whatever is called, a new Mixer on a working writer writes and answers as the relation says. *)
Theorem C182_mixer : forall os out vs w0 x w rs, Forall proper_call os -> never_fails w0 -> flv_mixed [] os out vs -> flv_run (new_mixer, w0) os = (x, w, rs) ->
  w_out w = w_out w0 ++ file_bytes out /\ Forall2 answers rs vs.
Proof.
  intros os out vs w0 x w rs HO HW H E. destruct (mixed_ok _ _ _ _ H new_mixer w0 inv_new HO HW) as (x' & w' & rs' & E' & A1 & A2). rewrite E in E'. injection E' as <- <- <-. auto.
Qed.
Print Assumptions C182_mixer.
(** An FLV reader gets back the tags whose data are shorter than 16 MB. *)
Definition reads_as (p : piece) (t : ftag) : Prop := match p with Start _ _ => False | Tag ty time d => t = tag_for ty time d end.
Definition readable (p : piece) : Prop := match p with Start _ _ => False | Tag ty time d => 0 <= ty < 256 /\ 0 <= time < 2 ^ 32 /\ len d < 2 ^ 24 end.
Theorem C182_reads_back : forall l, Forall readable l -> exists ts, reads_tags (file_bytes l) ts /\ Forall2 reads_as l ts.
Proof.
  induction 1 as [|[va aa|ty time d] l HR HL (ts & IH1 & IH2)]; [exists []; split; constructor|contradiction|]. destruct HR as (R1 & R2 & R3). exists (tag_for ty time d :: ts). split; [|constructor; [reflexivity|exact IH2]].
  unfold file_bytes. cbn [map concat]. fold (file_bytes l). econstructor; [rewrite <- tag_bytes by assumption; apply read_tag_calls; assumption|exact IH1].
Qed.
Print Assumptions C182_reads_back.
(** A configuration of no FLV type is refused and forgotten, but the video flag stays; metadata with a channel inside is refused; frames are sent before and after. *)
Definition ex_packet (ty : Z) (d : bytes) : packet := mkP ty 0 0 0 None d None.
Definition ex_ops : list flv_op := [FMux (ex_packet 1 [0xaf; 1; 7]) 5; FSaveAVC (ex_packet 0 [0x17; 0]); FSaveAVC (ex_packet 9 [1]); FSaveMeta [(str "a", TNil)]; FSaveMeta [(str "a", TOther)]; FSaveAAC (ex_packet 1 [0xaf; 0]); FHeader; FMux (ex_packet 2 [7; 0; 0]) 6; FMux (ex_packet 2 [3; 0]) 7; FMux (ex_packet 2 (2 :: 0 :: 13 :: str "@setDataFrame" ++ [5])) (2 ^ 24 + 8)].
Example C182_example : Forall proper_call ex_ops /\ exists out vs, flv_mixed [] ex_ops out vs /\ vs = [Accepted; Accepted; Refused; Accepted; Refused; Accepted; Accepted; Crashed; Refused; Accepted] /\
  out = [Tag 8 5 [0xaf; 1; 7]; Start true true; Tag 8 0 [0xaf; 0]; Tag 18 (2 ^ 24 + 8) [5]] /\ readable (Tag 18 (2 ^ 24 + 8) [5]).
Proof.
  assert (HB : forall s, forallb (fun b => (0 <=? b) && (b <? 256)) s = true -> is_bytes s) by (intros s E; apply is_bytes_dec; exact E).
  assert (HP : Forall proper_call ex_ops). { repeat (apply Forall_cons; [cbn [proper_call ex_packet p_data]; repeat split; try exact I; try discriminate; try (apply HB; vm_compute; reflexivity)|]). constructor. }
  split; [exact HP|]. destruct (mixed_exists [] ex_ops (Forall_nil _) HP) as (out & vs & H). exists out, vs. split; [exact H|].
  assert (G : flv_mixed [] ex_ops ([Tag 8 5 [0xaf; 1; 7]] ++ [] ++ [] ++ [] ++ [] ++ [] ++ [Start true true; Tag 8 0 [0xaf; 0]] ++ [] ++ [] ++ [Tag 18 (2 ^ 24 + 8) [5]] ++ []) [Accepted; Accepted; Refused; Accepted; Refused; Accepted; Accepted; Crashed; Refused; Accepted]).
  { unfold ex_ops.
    apply Fm_cons; [apply (Fl_mux _ (ex_packet 1 [0xaf; 1; 7]) 5 _ Accepted), Ca_media; auto|].
    apply Fm_cons; [apply (Fl_save _ _ (ex_packet 0 [0x17; 0]) [0x17; 0]); [left; reflexivity|apply (Ca_media (ex_packet 0 [0x17; 0])); auto]|].
    apply Fm_cons; [apply (Fl_save _ _ (ex_packet 9 [1]) []); [left; reflexivity|apply Ca_other; cbn; lia]|].
    apply Fm_cons; [apply (Fl_metadata _ [(str "a", TNil)])|]. apply Fm_cons; [apply (Fl_metadata _ [(str "a", TOther)])|].
    apply Fm_cons; [apply (Fl_save _ _ (ex_packet 1 [0xaf; 0]) [0xaf; 0]); [right; reflexivity|apply (Ca_media (ex_packet 1 [0xaf; 0])); auto]|].
    apply Fm_cons; [match goal with |- call_flv ?h _ _ _ => pose proof (Fl_header h [] [] [Tag 8 0 [0xaf; 0]]) as F; cbn in F; apply F; clear F end|].
    - apply (Kp_metadata [(str "a", TOther)]).
    - apply (Kp_header _ (ex_packet 9 [1]) [] Refused); [left; reflexivity|apply Ca_other; cbn; lia].
    - apply (Kp_header _ (ex_packet 1 [0xaf; 0]) [0xaf; 0] Accepted); [right; reflexivity|apply (Ca_media (ex_packet 1 [0xaf; 0])); auto].
    - assert (B : forall d, forallb (fun b => (0 <=? b) && (b <? 256)) d = true -> is_bytes (p_data (ex_packet 2 d))) by (intros d X; apply HB; exact X).
      apply Fm_cons; [apply (Fl_mux _ (ex_packet 2 [7; 0; 0]) 6 [] Crashed), Ca_refers; [reflexivity|]; pose proof (C180_del [7; 0; 0] (B [7; 0; 0] eq_refl)) as D; match type of D with match ?t with _ => _ end => let r := eval vm_compute in t in change t with r in D end; exact D|].
      apply Fm_cons; [apply (Fl_mux _ (ex_packet 2 [3; 0]) 7 [] Refused); pose proof (C180_del [3; 0] (B [3; 0] eq_refl)) as D|].
      + match type of D with match ?t with _ => _ end => let r := eval vm_compute in t in change t with r in D end. cbv iota in D. apply Ca_no_text; [reflexivity|exact (proj1 D)|exact (proj2 D)].
      + apply Fm_cons; [|constructor]. apply (Fl_mux _ (ex_packet 2 _) _ [5] Accepted). apply Ca_metadata; [reflexivity|]. apply Wc_command; [apply (Tx_string (str "@setDataFrame") [5]); [vm_compute; discriminate|discriminate]|exists (2 :: 0 :: 13 :: str "@setDataFrame"); split; reflexivity]. }
  destruct (mixed_fun _ _ _ _ H _ _ (Forall_nil _) HP G) as [-> ->]. split; [reflexivity|]. split; [reflexivity|]. cbn. repeat split; try discriminate; lia.
Qed.
