(** Property C187: an FLV Mixer on writers that fail as they like and are replaced at any time. *)
From Coq Require Import String.
From Verif Require Import Base.Go Base.GoFacts Base.IO Proofs.IOFacts Model.AmfTypes Model.Amf3 Model.Amf0 Model.Metadata Model.Packet Model.Flv
  Spec.Amf Spec.Gop Spec.Flv Spec.Codec Spec.Amf3Ref Spec.AmfAll Spec.Command Spec.AmfRaw Proofs.AmfFacts Proofs.Metadata Proofs.Gop Proofs.Flv Props.Command Props.AmfRaw Spec.FlvMixer Props.FlvMixer Spec.FlvWriters.
Import ListNotations.
Local Open Scope list_scope.
Local Open Scope Z_scope.
Local Ltac Zify.zify_post_hook ::= Z.div_mod_to_equations.

(** Data are bytes and times are uint32; SetWriter takes any writer. *)
Definition any_call (o : flv_op) : Prop :=
  match o with
  | FMux p pts => is_bytes (p_data p) /\ 0 <= pts < 2 ^ 32
  | FSaveAVC p | FSaveAAC p => is_bytes (p_data p)
  | _ => True
  end.
Lemma plan_delivers cs : forall w w' ok, delivers cs w w' ok -> run_plan cs (Ok tt) w = (w', if ok then Ok tt else Err EWrite).
Proof.
  induction cs as [|c cs IH]; intros w w' ok H; inversion H as [|? ? ? ? ? E D|? ? ? n E]; subst; cbn [run_plan]; [reflexivity|..]; unfold write; rewrite E; [apply IH; exact D|reflexivity].
Qed.
Lemma delivers_exists cs : forall w, exists w' ok, delivers cs w w' ok.
Proof.
  induction cs as [|c cs IH]; intros w; [eexists _, _; constructor|]. destruct (w_script w (w_calls w)) as [n|] eqn:E; [eexists _, _; eapply De_failed; exact E|].
  destruct (IH (mkW (w_out w ++ c) (S (w_calls w)) (w_script w))) as (w' & ok & D). eexists _, _. eapply De_written; eassumption.
Qed.
Lemma delivers_nil w w' ok : delivers [] w w' ok -> w' = w /\ ok = true.
Proof. intros H. inversion H. auto. Qed.
Lemma hdr_part ty time d : 0 <= ty < 256 -> 0 <= time < 2 ^ 32 -> tag_calls ty d time = tag_parts (Tag ty time d).
Proof.
  intros H1 H2. unfold tag_calls. cbn [tag_parts]. apply cons_eq; [|reflexivity]. unfold hdr11, be24. unfold be32. cbn [app]. change (2 ^ 24) with 16777216. change (2 ^ 32) with 4294967296 in H2. pose proof (len_nonneg d). unfold u8.
  repeat apply cons_eq; try lia. reflexivity.
Qed.
Lemma mux_meant m p pts w d v w1 ok : wf_mux m -> 0 <= pts < 2 ^ 32 -> is_bytes (p_data p) -> carried p d v -> delivers (flat_map tag_parts (tag_of p pts d v)) w w1 ok ->
  exists m' p' r, mux m p pts w = (m', p', (w1, r)) /\ wf_mux m' /\ answered r v ok.
Proof.
  intros HM HP HB HC HD. pose proof (carried_select _ _ _ HB HC) as S. destruct v.
  - destruct (mux_ok m p pts w _ _ HM HP S (tag_number_range _)) as (m' & M1 & M2). cbn [tag_of flat_map] in HD. rewrite app_nil_r, <- hdr_part in HD by (auto; apply tag_number_range). rewrite M2, (plan_delivers _ _ _ _ HD). eexists _, _, _. split; [reflexivity|]. split; [exact M1|]. destruct ok; reflexivity.
  - apply delivers_nil in HD as [-> ->]. destruct S as [e S]. rewrite mux_not_ok by (rewrite S; discriminate). rewrite S. eexists _, _, _. split; [reflexivity|]. split; [exact HM|]. exists e; reflexivity.
  - apply delivers_nil in HD as [-> ->]. rewrite mux_not_ok by (rewrite S; discriminate). rewrite S. eexists _, _, _. split; [reflexivity|]. split; [exact HM|reflexivity].
Qed.
Lemma kept_one o l : kept o l -> (if 0 <? len (file_bytes l) then [file_bytes l] else []) = map piece_bytes l.
Proof.
  assert (T : forall ty time d, (if 0 <? len (file_bytes [Tag ty time d]) then [file_bytes [Tag ty time d]] else []) = map piece_bytes [Tag ty time d]).
  { intros ty time d. unfold file_bytes. cbn [map concat]. rewrite app_nil_r. cbn [piece_bytes]. rewrite len_cons. pose proof (len_nonneg (be24 (len d) ++ be24 time ++ [u8 (time / 2 ^ 24)] ++ [0; 0; 0] ++ d ++ be32 (11 + len d))). destruct (0 <? 1 + _) eqn:E; [reflexivity|lia]. }
  intros H. destruct H as [|o p d v _ _|md]; [reflexivity|destruct v; [apply T|reflexivity..]|destruct (supported (TObj md)); [apply T|reflexivity]].
Qed.
Lemma step_meant h x w o out v w1 ok : inv h x -> proper_call o -> call_flv h o out v -> delivers (meant o out) w w1 ok ->
  exists x' r, flv_step (x, w) o = (x', w1, r) /\ inv (h ++ [o]) x' /\ answered r v ok.
Proof.
  intros HI HO H HD. inversion H as [p pts d v1 HC|meta avc aac K1 K2 K3|md|o1 p d v1 HS HC]; subst.
  - destruct HI as [Iw It Iv Ia Im Ic Ik]. destruct HO as [HB HP]. cbn [flv_step meant] in *. unfold mixer_mux. destruct (mux_meant (mx_muxer x) p pts w d v w1 ok Iw HP HB HC HD) as (m' & p' & r & M1 & M2 & M3). rewrite M1.
    eexists _, _. split; [reflexivity|]. split; [|exact M3].
    constructor; cbn [mx_muxer mx_types mx_meta mx_avc mx_aac]; rewrite ?existsb_snoc, ?latest_snoc; cbn [sel_meta sel_avc sel_aac]; rewrite ?orb_false_r; assumption.
  - destruct HI as [Iw It Iv Ia Im Ic Ik]. cbn [flv_step meant] in *. unfold set_flv_header. destruct (mx_header_ok (mx_muxer x) (mx_types x) Iw It) as (m' & M1 & M2). rewrite M2.
    assert (PL : planned (w* _ := write (flv_signature (Z.testbit (mx_types x) 0) (Z.testbit (mx_types x) 1)) in w* _ := write_cache (mx_meta x) in w* _ := write_cache (mx_avc x) in write_cache (mx_aac x))
       (header_calls (existsb sel_avc h) (existsb sel_aac h) x) (Ok tt)).
    { rewrite Iv, Ia. unfold header_calls. apply (planned_bind _ _ _ tt _ (Ok tt)); [apply planned_write|]. apply (planned_bind _ _ _ tt _ (Ok tt)); [apply write_cache_plan|].
      apply (planned_bind _ _ _ tt _ (Ok tt)); [apply write_cache_plan|]. apply write_cache_plan. }
    assert (HE : header_calls (existsb sel_avc h) (existsb sel_aac h) x = map piece_bytes (Start (existsb sel_avc h) (existsb sel_aac h) :: meta ++ avc ++ aac)).
    { unfold header_calls. rewrite (Im _ K1), (Ic _ K2), (Ik _ K3), (kept_one _ _ K1), (kept_one _ _ K2), (kept_one _ _ K3). cbn [map app]. rewrite !map_app. reflexivity. }
    rewrite (PL w), HE, (plan_delivers _ _ _ _ HD). eexists _, _. split; [reflexivity|]. split; [|destruct ok; reflexivity].
    constructor; cbn [mx_muxer mx_types mx_meta mx_avc mx_aac]; rewrite ?existsb_snoc, ?latest_snoc; cbn [sel_meta sel_avc sel_aac]; rewrite ?orb_false_r; assumption.
  - cbn [meant map] in HD. apply delivers_nil in HD as [-> ->]. destruct (call_step h x buffer0 _ _ _ HI HO never_fails_buffer0 H) as (x' & w' & r & E & I' & _ & _ & A). exists x', r.
    cbn [flv_step] in *. destruct (save_metadata x md) as [x2 r2]. injection E as <- _ <-. auto.
  - assert (w1 = w /\ ok = true) as [-> ->] by (apply delivers_nil; destruct HS as [-> | ->]; exact HD). destruct (call_step h x buffer0 _ _ _ HI HO never_fails_buffer0 H) as (x' & w' & r & E & I' & _ & _ & A). exists x', r.
    destruct HS as [-> | ->]; cbn [flv_step] in *; [destruct (save_avc_header x p) as [[x2 p2] r2]|destruct (save_aac_header x p) as [[x2 p2] r2]]; injection E as <- _ <-; auto.
Qed.
Lemma any_proper o : any_call o -> (exists w, o = FSetWriter w) \/ proper_call o.
Proof. destruct o; cbn; eauto. Qed.
Lemma proper_any o : proper_call o -> any_call o.
Proof. destruct o; cbn; tauto. Qed.
Lemma ran_exists os : forall h x w, Forall any_call os -> Forall proper_call h -> inv h x -> exists x' w' rs, flv_run (x, w) os = (x', w', rs) /\ flv_ran h w os w' rs.
Proof.
  induction os as [|o os IH]; intros h x w HO HH HI; [eexists _, _, _; split; [reflexivity|constructor]|]. inversion HO as [|? ? H1 H2]; subst. cbn [flv_run]. destruct (any_proper o H1) as [[w2 ->]|HP].
  - cbn [flv_step]. destruct (IH h x w2 H2 HH HI) as (x' & w' & rs & E & R). rewrite E. eexists _, _, _. split; [reflexivity|]. constructor. exact R.
  - destruct (call_exists h o HH HP) as (out & v & HC). destruct (delivers_exists (meant o out) w) as (w1 & ok & D). destruct (step_meant h x w o out v w1 ok HI HP HC D) as (x1 & r & E1 & I1 & A). rewrite E1.
    destruct (IH (h ++ [o]) x1 w1 H2 ltac:(apply Forall_app; auto) I1) as (x' & w' & rs & E & R). rewrite E. eexists _, _, _. split; [reflexivity|]. econstructor; eassumption.
Qed.
Lemma delivers_fun cs : forall w w1 ok1 w2 ok2, delivers cs w w1 ok1 -> delivers cs w w2 ok2 -> w1 = w2 /\ ok1 = ok2.
Proof. intros w w1 ok1 w2 ok2 H1 H2. apply plan_delivers in H1, H2. rewrite H1 in H2. destruct ok1, ok2; inversion H2; auto. Qed.
(** How answers agree: errors that are not the writer's are not told apart. *)
Definition same_answer (r r' : res unit) : Prop := r = r' \/ (exists e, r = Err e) /\ exists e, r' = Err e.
Lemma ran_fun h w os w1 rs1 : flv_ran h w os w1 rs1 -> forall w2 rs2, Forall any_call os -> Forall proper_call h -> flv_ran h w os w2 rs2 -> w1 = w2 /\ Forall2 same_answer rs1 rs2.
Proof.
  induction 1 as [h w|h w o out v wa ok r os w' rs HC HD HA HR IH|h w wa os w' rs HR IH]; intros w2 rs2 HO HH H2.
  - inversion H2; subst. split; [reflexivity|constructor].
  - inversion HO as [|? ? O1 O2]; subst. inversion H2 as [|? ? ? out2 v2 wb ok2 r2 ? ? rs2' HC2 HD2 HA2 HR2|]; subst; [|inversion HC as [| | |? ? ? ? [X|X] _]; discriminate].
    destruct (any_proper o O1) as [[w0 ->]|HP]; [inversion HC as [| | |? ? ? ? [X|X] _]; discriminate|]. destruct (call_fun _ _ _ _ _ _ HH HP HC HC2) as [-> ->]. destruct (delivers_fun _ _ _ _ _ _ HD HD2) as [-> ->].
    destruct (IH _ _ O2 ltac:(apply Forall_app; auto) HR2) as [-> F]. split; [reflexivity|]. constructor; [|exact F]. destruct ok2; cbn [answered] in HA, HA2; [|left; congruence]. destruct v2; cbn [answers] in *; [left; congruence|right; auto|left; congruence].
  - inversion HO as [|? ? O1 O2]; subst. inversion H2 as [|? ? ? out2 v2 wb ok2 r2 ? ? rs2' HC2|? ? ? ? ? rs2' HR2]; subst; [inversion HC2 as [| | |? ? ? ? [X|X] _]; discriminate|].
    destruct (IH _ _ O2 HH HR2) as [-> F]. split; [reflexivity|]. constructor; [left; reflexivity|exact F].
Qed.

(** ** C187 *)
(** Whatever is called, and whatever its writers do, a new Mixer does as the relation says. *)
Theorem C187_mixer : forall os w0 x w rs, Forall any_call os -> flv_run (new_mixer, w0) os = (x, w, rs) -> flv_ran [] w0 os w rs.
Proof. intros os w0 x w rs HO E. destruct (ran_exists os [] new_mixer w0 HO (Forall_nil _) inv_new) as (x' & w' & rs' & E' & R). rewrite E in E'. injection E' as <- <- <-. exact R. Qed.
Print Assumptions C187_mixer.
(** The relation determines the writer, and the answers up to the kind of error. *)
Theorem C187_unique : forall os w0 w1 rs1 w2 rs2, Forall any_call os -> flv_ran [] w0 os w1 rs1 -> flv_ran [] w0 os w2 rs2 -> w1 = w2 /\ Forall2 same_answer rs1 rs2.
Proof. intros os w0 w1 rs1 w2 rs2 HO H1 H2. exact (ran_fun _ _ _ _ _ H1 _ _ HO (Forall_nil _) H2). Qed.
Print Assumptions C187_unique.
(** The calls other than SetWriter. *)
Definition keeps_writer (o : flv_op) : bool := match o with FSetWriter _ => false | _ => true end.
Lemma ran_split os : forall h w os' w' rs, flv_ran h w (os ++ os') w' rs -> exists w1 rs1 rs2, rs = rs1 ++ rs2 /\ length rs1 = length os /\ flv_ran h w os w1 rs1 /\ flv_ran (h ++ filter keeps_writer os) w1 os' w' rs2.
Proof.
  induction os as [|o os IH]; intros h w os' w' rs H; [exists w, [], rs; cbn [filter]; rewrite app_nil_r; repeat split; [constructor|exact H]|]. cbn [app] in H.
  inversion H as [|? ? ? out v wa ok r ? ? rs' HC HD HA HR|? ? wa ? ? rs' HR]; subst; destruct (IH _ _ _ _ _ HR) as (w1 & rs1 & rs2 & -> & L & R1 & R2).
  - assert (K : keeps_writer o = true) by (destruct o; try reflexivity; inversion HC as [| | |? ? ? ? [X|X] _]; discriminate). exists w1, (r :: rs1), rs2. cbn [filter]. rewrite K. rewrite <- app_assoc in R2. repeat split; [cbn [length]; lia|econstructor; eassumption|exact R2].
  - exists w1, (Ok tt :: rs1), rs2. cbn [filter keeps_writer]. repeat split; [cbn [length]; lia|constructor; assumption|exact R2].
Qed.
Lemma kept_proper os : Forall any_call os -> Forall proper_call (filter keeps_writer os).
Proof. induction 1 as [|o os H HF IH]; [constructor|]. cbn [filter]. destruct o; cbn [keeps_writer]; try constructor; auto. Qed.
(** A failing writer has no lasting effect: once it is replaced, the calls write and answer what they would if it had worked. *)
Theorem C187_recovers : forall os os' w0 w0' w1 x w rs x' w' rs', Forall any_call os -> Forall any_call os' ->
  flv_run (new_mixer, w0) (os ++ FSetWriter w1 :: os') = (x, w, rs) -> flv_run (new_mixer, w0') (os ++ FSetWriter w1 :: os') = (x', w', rs') ->
  w = w' /\ Forall2 same_answer (skipn (length os) rs) (skipn (length os) rs').
Proof.
  intros os os' w0 w0' w1 x w rs x' w' rs' H1 H2 E E'. assert (HO : Forall any_call (os ++ FSetWriter w1 :: os')) by (apply Forall_app; split; [exact H1|constructor; [exact I|exact H2]]).
  destruct (ran_split _ _ _ _ _ _ (C187_mixer _ _ _ _ _ HO E)) as (wa & ra & rb & -> & L & _ & R). destruct (ran_split _ _ _ _ _ _ (C187_mixer _ _ _ _ _ HO E')) as (wa' & ra' & rb' & -> & L' & _ & R'). cbn [app] in R, R'.
  inversion R as [|? ? ? ? ? ? ? ? ? ? ? HC|? ? ? ? ? rc R2]; subst; [inversion HC as [| | |? ? ? ? [X|X] _]; discriminate|]. inversion R' as [|? ? ? ? ? ? ? ? ? ? ? HC|? ? ? ? ? rc' R2']; subst; [inversion HC as [| | |? ? ? ? [X|X] _]; discriminate|].
  destruct (ran_fun _ _ _ _ _ R2 _ _ H2 (kept_proper _ H1) R2') as [-> F]. split; [reflexivity|]. rewrite <- L at 1. rewrite <- L'. rewrite !skipn_app, !skipn_all, !Nat.sub_diag. cbn [skipn app]. constructor; [left; reflexivity|exact F].
Qed.
Print Assumptions C187_recovers.
(** What a working writer is given, until it is replaced: the pieces of the calls made meanwhile (C182), whatever became of earlier writers. *)
Theorem C187_segment : forall os os' w0 w1 x w rs, Forall any_call os -> Forall proper_call os' -> never_fails w1 ->
  flv_run (new_mixer, w0) (os ++ FSetWriter w1 :: os') = (x, w, rs) ->
  exists out vs, flv_mixed (filter keeps_writer os) os' out vs /\ w_out w = w_out w1 ++ file_bytes out /\ Forall2 answers (skipn (S (length os)) rs) vs.
Proof.
  intros os os' w0 w1 x w rs H1 H2 HW E. assert (HA : Forall any_call os') by (eapply Forall_impl; [|exact H2]; exact proper_any). assert (HO : Forall any_call (os ++ FSetWriter w1 :: os')) by (apply Forall_app; split; [exact H1|constructor; [exact I|exact HA]]).
  destruct (ran_split _ _ _ _ _ _ (C187_mixer _ _ _ _ _ HO E)) as (wa & ra & rb & -> & L & _ & R). cbn [app] in R.
  inversion R as [|? ? ? ? ? ? ? ? ? ? ? HC|? ? ? ? ? rc R2]; subst; [inversion HC as [| | |? ? ? ? [X|X] _]; discriminate|].
  replace (skipn (S (length os)) (ra ++ Ok tt :: rc)) with rc by (rewrite <- L; change (Ok tt :: rc) with ([Ok tt] ++ rc); rewrite app_assoc; replace (S (length ra)) with (length (ra ++ [Ok tt])) by (rewrite app_length; cbn; lia); rewrite skipn_app, skipn_all, Nat.sub_diag; reflexivity).
  clear E HO R HA L ra. revert HW H2 R2. generalize (filter keeps_writer os). intros h HW H2 R. clear H1. revert HW. induction R as [h w1|h w1 o out v wb ok r os2 w' rs HC HD HA HR IH|h w1 wb os2 w' rs HR IH]; intros HW.
  - exists [], []. split; [constructor|]. split; [symmetry; apply app_nil_r|constructor].
  - inversion H2 as [|? ? P1 P2]; subst. assert (D : ok = true /\ never_fails wb /\ w_out wb = w_out w1 ++ concat (meant o out)).
    { clear - HD HW. induction HD as [w|c cs w w' ok E D IH|c cs w n E]; [repeat split; auto; symmetry; apply app_nil_r| |rewrite HW in E; discriminate]. destruct IH as (-> & W & ->); [exact HW|]. cbn [w_out concat]. rewrite <- app_assoc. auto. }
    destruct D as (-> & W & O). destruct (IH P2 W) as (out' & vs & M & O' & A). exists (out ++ out'), (v :: vs). split; [econstructor; eassumption|]. split; [|constructor; [exact HA|exact A]].
    assert (M1 : concat (meant o out) = file_bytes out).
    { clear - HC. unfold file_bytes. destruct o; try reflexivity. inversion HC as [p' pts' d v1 C'| | |? ? ? ? [X|X] _]; try discriminate. destruct v; [|reflexivity..]. cbn [tag_of meant flat_map map concat tag_parts piece_bytes]. rewrite ?app_nil_r, <- ?app_assoc. cbn [concat app]. rewrite ?app_nil_r, <- ?app_assoc. reflexivity. }
    rewrite O', O, M1, file_app, app_assoc. reflexivity.
  - inversion H2 as [|? ? P1 P2]; subst. contradiction.
Qed.
Print Assumptions C187_segment.
Definition ex_fails : writer := mkW [] 0 (fun n => if (n =? 2)%nat then Some 1%nat else None).
Definition ex_media (d : bytes) : flv_op := FMux (ex_packet 1 d) 7.
Example C187_example : Forall any_call [FSaveAAC (ex_packet 1 [0xaf; 0]); ex_media [0xaf; 1]; ex_media [0xaf; 2]; FSetWriter buffer0; FHeader; ex_media [0xaf; 3]] /\
  exists x w rs, flv_run (new_mixer, ex_fails) [FSaveAAC (ex_packet 1 [0xaf; 0]); ex_media [0xaf; 1]; ex_media [0xaf; 2]; FSetWriter buffer0; FHeader; ex_media [0xaf; 3]] = (x, w, rs) /\
  rs = [Ok tt; Err EWrite; Ok tt; Ok tt; Ok tt; Ok tt] /\ w_out w = file_bytes [Start false true; Tag 8 0 [0xaf; 0]; Tag 8 7 [0xaf; 3]].
Proof.
  split; [|do 3 eexists; split; [vm_compute; reflexivity|split; vm_compute; reflexivity]].
  repeat (apply Forall_cons; [cbn; repeat split; try exact I; try discriminate; try (apply is_bytes_dec; reflexivity)|]). constructor.
Qed.
