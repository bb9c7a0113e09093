(** Property C167: viewers of a live relay made of Demux, the GOP cache and FLV mixers. *)
From Coq Require Import String.
From Verif Require Import Base.Go Base.GoFacts Base.IO Model.AmfTypes Model.Packet Model.Gop Model.GopPtr Model.Flv Model.Relay
  Spec.Gop Spec.GopPtr Spec.Flv Spec.Relay Proofs.Gop Proofs.GopPtr Proofs.Flv Proofs.Relay Props.Flv Props.Serve.
Import ListNotations.

(** ** C167 *)
(** Whatever is published and whoever joins before and after: the viewer who joins is written the tags of the latest
    metadata and configurations and of the last n groups of the bodies published by then, at their own times, and
    nothing later. If their writer fails it is the beginning of that, and SendTo reports it. *)
Theorem C167_relay_viewer : forall n c0 s0 before after c s rs h x w, new_cache_of n = Ok c0 -> Forall publishable (published before) ->
  fs_mixers s0 (viewers before) = (x, w) -> in_use h x ->
  gop_run_ptr fs_packets c0 s0 (relay 0 0 (before ++ View :: after)) = (c, (s, rs)) ->
  exists r out rest ts, nth_error rs (length (relay 0 0 before)) = Some r /\
    w_out (snd (fs_mixers s (viewers before))) = w_out w ++ out /\
    viewer_tags (to_viewer (Z.to_nat n) (published before)) ts /\ reads_tags (out ++ rest) ts /\
    (r = Ok tt /\ rest = [] \/ r = Err EWrite) /\ (never_fails w -> r = Ok tt).
Proof.
  intros n c0 s0 before after c s rs h x w Hc HP HM HX HR. set (N := Z.to_nat n).
  destruct (sim_run fs_packets _ (relay 0 0 (before ++ View :: after)) c0 [] s0 (sim_new _ _ Hc)) as [E1 _]. rewrite HR in E1. cbn [fst snd] in E1. fold N in E1.
  set (B := fun k => nth k (published before) (mkP 0 0 0 0 None [] None)).
  assert (HB : forall k, (k < length (published before))%nat -> B k = nth k (published before) (B k)) by (intros k Hk; apply nth_indep, Hk).
  pose proof (inv_run N B (fs_mixers s0) before HB HP s0 eq_refl) as I. cbv zeta in I.
  rewrite relay_app in E1. cbn [Nat.add] in E1. set (i := viewers before) in *.
  pose proof (spec_run_app fs_packets N (relay 0 0 before) (relay (length (published before)) i (View :: after)) [] s0) as R.
  pose proof (spec_run_length fs_packets N (relay 0 0 before) [] s0) as L.
  destruct (spec_run fs_packets N [] s0 (relay 0 0 before)) as [h1 [s1 r1]]. cbn [fst snd] in I, L.
  cbn [relay spec_run spec_step] in R.
  destruct (iv_packets _ _ _ _ _ _ _ I) as (h0 & M & E0).
  pose proof (iv_known _ _ _ _ _ _ _ I) as KN. rewrite Forall_forall in KN.
  assert (KP : forall k, In k (pointer_replay N h1) -> (k < length (published before))%nat).
  { intros k Hk. apply in_replay in Hk. apply in_map_iff in Hk. destruct Hk as (j & <- & Hj). exact (KN j Hj). }
  pose proof (replay_bodies _ _ _ _ _ _ _ I) as RB. pose proof (viewer_typed N (published before)) as VT. rewrite <- RB in VT.
  assert (QB : forall k, In k (pointer_replay N h1) -> publishable (B k)).
  { intros k Hk. rewrite Forall_forall in HP. apply HP. rewrite (HB k (KP k Hk)). apply nth_In, KP, Hk. }
  assert (QC : forall k, In k (pointer_replay N h1) -> exists d, tag_content (B k) d /\ len d < 2 ^ 24).
  { intros k Hk. destruct (QB k Hk) as (_ & _ & T). apply T. rewrite Forall_forall in VT. apply VT, in_map, Hk. }
  assert (QK : forall k, In k (pointer_replay N h1) -> p_type (h0 k) = p_type (B k) /\ p_ts (h0 k) = p_ts (B k) /\ p_data (h0 k) = p_data (B k)).
  { intros k Hk. rewrite (E0 k (KP k Hk)). apply demux_keeps, (QB k Hk). }
  assert (HO : forall k, In k (pointer_replay N h1) -> one_frame_name (h0 k)).
  { intros k Hk. destruct (QC k Hk) as (d & Td & _). destruct (QK k Hk) as (T1 & _ & T3). exact (content_one _ _ _ Td T1 T3). }
  assert (CT : forall k d, In k (pointer_replay N h1) -> tag_content (B k) d <-> tag_content (h0 k) d).
  { intros k d Hk. destruct (QK k Hk) as (T1 & _ & T3). split; intros T; inversion T; subst; try (rewrite <- T3 || rewrite T3; apply TC_media; congruence); eapply TC_meta; eauto; congruence. }
  destruct (serve_one (pointer_replay N h1) i h0 HO s1 M) as (A1 & _ & _). rewrite (iv_mixers _ _ _ _ _ _ _ I i (le_n i)), HM in A1.
  destruct (mux_own_tags (map h0 (pointer_replay N h1)) x w (in_use_wf _ _ HX)) as (x' & w' & r & out & rest & ts & O1 & O2 & O3 & O4 & O5 & O6).
  { apply Forall_forall. intros q Hq. apply in_map_iff in Hq. destruct Hq as (k & <- & Hk). destruct (QK k Hk) as (_ & T2 & _). split; [rewrite T2; apply (QB k Hk)|].
    destruct (QC k Hk) as (d & Td & Ld). exists d. split; [apply CT; assumption|exact Ld]. }
  rewrite O1 in A1. pose proof (later_other N i after (length (published before)) (S i) h1) as LO.
  destruct (call_each (flv_subscriber i) (pointer_replay N h1) s1) as [s2 r2]. cbn [fst snd] in A1. injection A1 as A1 ->. specialize (LO s2 ltac:(lia)).
  destruct (spec_run fs_packets N h1 s2 (relay (length (published before)) (S i) after)) as [h3 [s3 r3]]. cbn [fst snd] in LO.
  cbn [relay] in E1. rewrite R in E1. cbn [snd] in E1. injection E1 as -> ->.
  exists r, out, rest, ts. split; [rewrite nth_error_app2 by lia; rewrite <- L, Nat.sub_diag; reflexivity|].
  split; [rewrite LO, A1; exact O2|]. split; [|auto].
  rewrite <- RB. clear - O3 QK CT. revert ts O3. revert QK CT. generalize (pointer_replay N h1) as ks. induction ks as [|k ks IH]; intros QK CT ts O3; inversion O3 as [|? t ? ts' (d & D1 & D2) O3']; subst; [constructor|].
  constructor.
  - destruct (QK k (or_introl eq_refl)) as (T1 & T2 & _). exists d. split; [apply CT; [left; reflexivity|exact D1]|]. rewrite T1, T2. reflexivity.
  - apply IH; [intros j Hj; apply QK; right; exact Hj|intros j e Hj; apply CT; right; exact Hj|exact O3'].
Qed.
Print Assumptions C167_relay_viewer.
(** Two viewers, the first before the last key frame: what they need, and that they get it. *)
Definition ex_body (ty ts : Z) (d : bytes) : packet := mkP ty ts 0 0 None d None.
Definition ex_meta : packet := ex_body 2 0 (frame_header ++ [2; 0; 10] ++ str "onMetaData" ++ [3; 0; 0; 9]).
Definition ex_early : list relay_event :=
  [Publish (ex_body 0 5 [39; 1; 0; 0; 0; 9]); Publish ex_meta; Publish (ex_body 0 0 [23; 0; 0; 0; 0; 1]); Publish (ex_body 1 0 [175; 0; 18]);
   Publish (ex_body 0 40 [23; 1; 0; 0; 0; 2]); Publish (ex_body 1 41 [175; 1; 3]); Publish (ex_body 0 80 [39; 1; 0; 0; 0; 4])].
Definition ex_late : list relay_event := ex_early ++ View :: [Publish (ex_body 0 120 [23; 1; 0; 0; 0; 5]); Publish (ex_body 7 0 [1])].
Lemma ex_late_publishable : Forall publishable (published ex_late).
Proof.
  assert (M : forall ty ts d, (ty = 0 \/ ty = 1) -> is_bytes d -> len d < 16777216 -> 0 <= ts < 4294967296 -> publishable (ex_body ty ts d)).
  { intros ty ts d T HB L S. split; [exact HB|]. split; [exact S|]. intros _. exists d. split; [|exact L]. apply (TC_media (ex_body ty ts d)). exact T. }
  cbn [published ex_late ex_early flat_map app].
  repeat (apply Forall_cons; [try (apply M; [lia|apply is_bytes_dec; reflexivity|unfold len; cbn [length]; lia|lia])|]).
  - split; [apply is_bytes_dec; reflexivity|]. split; [cbn; lia|]. intros _. exists ([2; 0; 10] ++ str "onMetaData" ++ [3; 0; 0; 9]). split; [|reflexivity].
    apply (TC_meta ex_meta _ (str "onMetaData") [3; 0; 0; 9]); [reflexivity|vm_compute; split; reflexivity|discriminate|reflexivity|right; reflexivity].
  - split; [apply is_bytes_dec; reflexivity|]. split; [cbn; lia|]. cbn [p_type ex_body]. lia.
  - constructor.
Qed.
Example C167_example :
  to_viewer 1 (published ex_early) = [ex_meta; ex_body 0 0 [23; 0; 0; 0; 0; 1]; ex_body 1 0 [175; 0; 18]; ex_body 0 40 [23; 1; 0; 0; 0; 2]; ex_body 0 80 [39; 1; 0; 0; 0; 4]] /\
  to_viewer 1 (published ex_late) = [ex_meta; ex_body 0 0 [23; 0; 0; 0; 0; 1]; ex_body 1 0 [175; 0; 18]; ex_body 0 120 [23; 1; 0; 0; 0; 5]] /\
  match new_cache_of 1 with
  | Ok c0 => let '(c, (s, rs)) := gop_run_ptr fs_packets c0 (mkFS (fun _ => ex_meta) (fun _ => (new_mixer, buffer0))) (relay 0 0 (ex_late ++ [View])) in
      len (w_out (snd (fs_mixers s 0))) = 113 /\ len (w_out (snd (fs_mixers s 1))) = 92 /\ w_out (snd (fs_mixers s 2)) = []
  | _ => False
  end.
Proof. vm_compute. repeat split. Qed.
