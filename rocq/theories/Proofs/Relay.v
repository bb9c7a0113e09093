(** The relay refines the list of published bodies. *)
From Coq Require Import String.
From Verif Require Import Base.Go Base.GoFacts Base.IO Model.AmfTypes Model.Amf3 Model.Amf0 Model.Metadata Model.Packet Model.Gop Model.GopPtr Model.Flv Model.Relay
  Spec.Gop Spec.GopPtr Spec.Flv Spec.Relay Proofs.IOFacts Proofs.Gop Proofs.GopPtr Proofs.Flv Props.Fan Props.Flv Props.Serve.
Import ListNotations.

(** ** Kinds *)
Definition body_of (x : kind) : body_kind :=
  match x with KMeta => BMeta | KVideoSeq => BVideoConfig | KAudioSeq => BAacConfig | KKey => BKey | KInter => BInter | KOther => BOther end.
Lemma demux_keeps p : is_bytes (p_data p) -> p_type (fst (demux p)) = p_type p /\ p_ts (fst (demux p)) = p_ts p /\ p_data (fst (demux p)) = p_data p.
Proof.
  intros HB. pose proof (C04_demux_exact p HB) as P. destruct (demux p) as [p' [u|e| |]]; cbn [fst]; try contradiction.
  - destruct P as (v & a & m & _ & ->). auto.
  - destruct P as [-> _]. auto.
Qed.
Lemma demux_kind p p' u : is_bytes (p_data p) -> demux p = (p', Ok u) -> exists x, kind_of p' = Some x /\ body_of x = body_kind_of p.
Proof.
  intros HB E. pose proof (C04_demux_exact p HB) as P. rewrite E in P. destruct P as (v & a & m & HD & ->). clear E.
  destruct p as [ty ts bs st hd data md]. cbn [p_data p_type p_ts p_base p_stream p_header] in *.
  unfold kind_of, kind_video, kind_audio, body_kind_of. cbn [p_type p_header p_data].
  destruct HD as [b0 b1 b2 b3 b4 m a -> F|b0 m a -> F1 F2 L|b0 b1 m v -> F|b0 m v -> F L|m v a ->].
  - cbn [Z.eqb Pos.eqb]. rewrite !len_cons. pose proof (len_nonneg m). replace (1 + (1 + (1 + len m)) <? 3) with false by lia.
    cbn [v_seq v_key v_inter]. eexists. split; [reflexivity|]. destruct (b0 / 16 =? 1); cbn [andb]; [destruct (b1 =? 0); reflexivity|]. destruct (b0 / 16 =? 2); reflexivity.
  - cbn [Z.eqb Pos.eqb v_seq v_key v_inter]. exists KOther. split; [reflexivity|]. destruct m as [|b1 m]; [reflexivity|]. rewrite len_cons in L. replace (len m <? 3) with false by lia.
    destruct (Z.eqb_spec (b0 / 16) 1); [contradiction|]. destruct (Z.eqb_spec (b0 / 16) 2); [contradiction|reflexivity].
  - cbn [Z.eqb Pos.eqb a_aac a_seq]. rewrite F. cbn [Z.eqb Pos.eqb andb]. eexists. split; [reflexivity|]. destruct (b1 =? 0); reflexivity.
  - cbn [Z.eqb Pos.eqb a_aac a_seq]. exists KOther. split; [reflexivity|]. destruct m; [reflexivity|]. rewrite F. reflexivity.
  - exists KMeta. split; reflexivity.
Qed.
Lemma no_demux_kind p p' e : is_bytes (p_data p) -> demux p = (p', Err e) -> body_kind_of p = BOther.
Proof.
  intros HB E. pose proof (C04_demux_exact p HB) as P. rewrite E in P. destruct P as [_ P]. unfold body_kind_of.
  destruct (Z.eqb_spec (p_type p) 2) as [T|T].
  { exfalso. refine (P (mkVH false false false false false 0 0) (mkAH 0 0 false false false) _ _). rewrite T. apply Dx_meta. reflexivity. }
  destruct (p_data p) as [|b0 [|b1 more]] eqn:D; [reflexivity|reflexivity|].
  destruct (Z.eqb_spec (p_type p) 0) as [T0|T0].
  - destruct (len more <? 3) eqn:L; [reflexivity|]. destruct more as [|b2 [|b3 [|b4 m]]]; try (cbn in L; discriminate).
    destruct (Z.eqb_spec (b0 / 16) 1) as [K|K].
    { exfalso. eapply P. rewrite T0. apply Dx_video; [reflexivity|auto]. }
    destruct (Z.eqb_spec (b0 / 16) 2) as [I|I]; [|reflexivity].
    exfalso. eapply P. rewrite T0. apply Dx_video; [reflexivity|auto].
  - destruct (Z.eqb_spec (p_type p) 1) as [T1|T1]; [|reflexivity]. destruct (Z.eqb_spec (b0 / 16) 10) as [A|A]; [|reflexivity].
    exfalso. eapply P. rewrite T1. apply Dx_aac; [reflexivity|exact A].
Unshelve. all: try exact (mkAH 0 0 false false false). all: exact (mkVH false false false false false 0 0).
Qed.
Lemma has_kind_body x y p : body_of x = body_kind_of p -> has_kind (body_of y) p = kind_eqb x y.
Proof. intros H. unfold has_kind. rewrite <- H. destruct x, y; reflexivity. Qed.
Lemma has_other y p : body_kind_of p = BOther -> y <> KOther -> has_kind (body_of y) p = false.
Proof. intros H N. unfold has_kind. rewrite H. destruct y; try reflexivity. contradiction. Qed.

Lemma latest_snoc {A} f (l : list A) x : latest f (l ++ [x]) = if f x then Some x else latest f l.
Proof. unfold latest. rewrite rev_app_distr. reflexivity. Qed.
Lemma last_of_snoc y h x k : last_of y (h ++ [(x, k)]) = if kind_eqb x y then [k] else last_of y h.
Proof. unfold last_of. rewrite latest_snoc. cbn [fst]. destruct (kind_eqb x y); reflexivity. Qed.
Lemma groups_snoc h i : groups (h ++ [i]) = group (groups h) i.
Proof. unfold groups. rewrite fold_left_app. reflexivity. Qed.
Lemma body_groups_snoc ps p : body_groups (ps ++ [p]) = add_body (body_groups ps) p.
Proof. unfold body_groups. rewrite fold_left_app. reflexivity. Qed.

(** ** The invariant: [B] gives the body published as number k. *)
Definition headed (y : kind) : Prop := y = KMeta \/ y = KVideoSeq \/ y = KAudioSeq.
Record Inv (N : nat) (B : nat -> packet) (m0 : nat -> mixer * writer) (ps : list packet) (j : nat) (h : history) (s : flv_state) : Prop := {
  iv_last : forall y, headed y -> map B (last_of y h) = opt (latest (has_kind (body_of y)) ps);
  iv_groups : N <> O -> map (map B) (groups h) = body_groups ps;
  iv_known : Forall (fun i => (snd i < length ps)%nat) h;
  iv_packets : exists h0, muxed_some h0 (fs_packets s) /\ forall k, (k < length ps)%nat -> h0 k = fst (demux (B k));
  iv_mixers : forall i, (j <= i)%nat -> fs_mixers s i = m0 i
}.
Lemma in_last y h k : In k (last_of y h) -> In k (map snd h).
Proof.
  unfold last_of, latest. destruct (find _ (rev h)) as [[x k']|] eqn:E; [|intros []]. intros [<-|[]]. cbn [snd].
  apply find_some in E. destruct E as [E _]. apply in_rev in E. apply (in_map snd) in E. exact E.
Qed.
Lemma in_groups h k : In k (concat (groups h)) -> In k (map snd h).
Proof.
  induction h as [|[x k'] h IH] using rev_ind; [intros []|]. rewrite groups_snoc, map_app, in_app_iff. unfold group. cbn [fst snd map].
  destruct x; try (intros H; left; apply IH, H).
  - rewrite concat_app, in_app_iff. intros [H|H]; [left; apply IH, H|right]. cbn in H. destruct H as [->|[]]. left. reflexivity.
  - destruct (snoc_inv (groups h)) as [->|(l & g & E)]; [intros []|]. rewrite E in *. rewrite app_last_snoc, concat_app, in_app_iff. cbn [concat]. rewrite app_nil_r, in_app_iff.
    rewrite concat_app in IH. cbn [concat] in IH. rewrite app_nil_r in IH. intros [H|[H|[->|[]]]].
    + left. apply IH, in_app_iff. left. exact H.
    + left. apply IH, in_app_iff. right. exact H.
    + right. left. reflexivity.
Qed.
Lemma in_skipn {A} n (l : list A) x : In x (skipn n l) -> In x l.
Proof. intros H. rewrite <- (firstn_skipn n l). apply in_app_iff. right. exact H. Qed.
Lemma in_replay N h k : In k (pointer_replay N h) -> In k (map snd h).
Proof.
  unfold pointer_replay, group_replay, lastn. rewrite !in_app_iff. intros [H|[H|[H|H]]]; try (eapply in_last; exact H).
  apply in_concat in H. destruct H as (g & Hg & Hk). apply in_skipn in Hg. apply in_groups, in_concat. exists g. auto.
Qed.
Lemma replay_bodies N B m0 ps j h s : Inv N B m0 ps j h s -> map B (pointer_replay N h) = to_viewer N ps.
Proof.
  intros I. unfold pointer_replay, to_viewer, group_replay. rewrite !map_app.
  rewrite (iv_last _ _ _ _ _ _ _ I KMeta), (iv_last _ _ _ _ _ _ _ I KVideoSeq), (iv_last _ _ _ _ _ _ _ I KAudioSeq) by (unfold headed; auto). cbn [body_of]. do 3 f_equal.
  destruct N as [|N]; [rewrite !lastn_0; reflexivity|]. rewrite <- (iv_groups _ _ _ _ _ _ _ I) by discriminate. rewrite concat_map, lastn_map. reflexivity.
Qed.

Lemma inv_assign N B m0 ps j h s p : Inv N B m0 ps j h s -> B (length ps) = p ->
  exists h0, muxed_some h0 (upd (fs_packets s) (length ps) (fst (demux p))) /\ forall k, (k < length (ps ++ [p]))%nat -> h0 k = fst (demux (B k)).
Proof.
  intros I HB. destruct (iv_packets _ _ _ _ _ _ _ I) as (h0 & M & H0). exists (upd h0 (length ps) (fst (demux p))). split.
  - intros k. unfold upd. destruct (Nat.eqb_spec k (length ps)); [left; reflexivity|apply M].
  - intros k Hk. rewrite app_length in Hk. cbn [length] in Hk. unfold upd. destruct (Nat.eqb_spec k (length ps)) as [->|]; [rewrite HB; reflexivity|]. apply H0. lia.
Qed.
(** A body that no list of the viewer takes. *)
Lemma inv_skip N B m0 ps j h s p : Inv N B m0 ps j h s -> B (length ps) = p -> body_kind_of p = BOther ->
  Inv N B m0 (ps ++ [p]) j h (mkFS (upd (fs_packets s) (length ps) (fst (demux p))) (fs_mixers s)).
Proof.
  intros I HB HK. constructor.
  - intros y Hy. rewrite latest_snoc, (has_other y p HK) by (destruct Hy as [-> | [-> | ->]]; discriminate). apply (iv_last _ _ _ _ _ _ _ I), Hy.
  - intros HN. rewrite body_groups_snoc. unfold add_body. rewrite HK. apply (iv_groups _ _ _ _ _ _ _ I HN).
  - eapply Forall_impl; [|apply (iv_known _ _ _ _ _ _ _ I)]. intros i Hi. rewrite app_length. cbv beta in Hi. lia.
  - cbn [fs_packets]. eapply inv_assign; eauto.
  - apply (iv_mixers _ _ _ _ _ _ _ I).
Qed.
Lemma inv_record N B m0 ps j h s p x : Inv N B m0 ps j h s -> B (length ps) = p -> body_of x = body_kind_of p ->
  Inv N B m0 (ps ++ [p]) j (fst (record N h (Some x) (length ps))) (mkFS (upd (fs_packets s) (length ps) (fst (demux p))) (fs_mixers s)).
Proof.
  intros I HB HK. assert (KN : Forall (fun i => (snd i < length (ps ++ [p]))%nat) h).
  { eapply Forall_impl; [|apply (iv_known _ _ _ _ _ _ _ I)]. intros i Hi. rewrite app_length. cbv beta in Hi. lia. }
  pose proof (inv_assign _ _ _ _ _ _ _ _ I HB) as PK.
  constructor; try exact PK; try exact (iv_mixers _ _ _ _ _ _ _ I).
  - intros y Hy. rewrite latest_snoc, (has_kind_body x y p HK). cbn [record]. destruct (rejects N h x) eqn:R; cbn [fst].
    + assert (x = KInter) as -> by (destruct x; cbn in R; try discriminate; reflexivity). destruct Hy as [-> | [-> | ->]]; cbn [kind_eqb]; apply (iv_last _ _ _ _ _ _ _ I); unfold headed; auto.
    + rewrite last_of_snoc. destruct (kind_eqb x y); [cbn [map opt]; rewrite HB; reflexivity|]. apply (iv_last _ _ _ _ _ _ _ I), Hy.
  - intros HN. pose proof (iv_groups _ _ _ _ _ _ _ I HN) as G. rewrite body_groups_snoc. unfold add_body. rewrite <- HK. cbn [record].
    destruct N as [|N]; [contradiction|].
    destruct x; cbn [rejects fst body_of]; try (rewrite groups_snoc; exact G).
    + rewrite groups_snoc. unfold group. cbn [fst snd]. rewrite map_app, G. cbn [map]. rewrite HB. reflexivity.
    + rewrite <- G, <- map_rev. destruct (rev (groups h)) as [|g l] eqn:E; cbn [map fst]; [reflexivity|]. rewrite len_map.
      destruct (Z.ltb_spec 1024 (len g)); destruct (Z.leb_spec (len g) 1024); try lia; cbn [fst]; [reflexivity|].
      rewrite groups_snoc. unfold group. cbn [fst snd]. rewrite <- HB, app_last_map. reflexivity.
  - cbn [record]. destruct (rejects N h x); cbn [fst]; [exact KN|]. apply Forall_app. split; [exact KN|]. constructor; [|constructor]. cbn [snd]. rewrite app_length. cbn [length]. lia.
Qed.

(** ** Viewing *)
Lemma content_payload p d : tag_content p d -> payload p d.
Proof.
  intros H. inversion H; subst.
  - apply Pl_av. exact H0.
  - destruct H4 as [E|E].
    + rewrite <- E. eapply Pl_meta; eauto. rewrite E. reflexivity.
    + apply Pl_meta_rtmp; assumption.
Qed.
Lemma content_one p d q : tag_content p d -> p_type q = p_type p -> p_data q = p_data p -> one_frame_name q.
Proof.
  intros H T D. unfold one_frame_name. rewrite T, D. change PktMetadata with 2. inversion H; subst.
  - left. lia.
  - right. assert (SN : starts_with_name ([2] ++ be16 (len s) ++ s ++ rest)).
    { exists s, rest. split; [assumption|]. split; [assumption|]. unfold amf0_string. cbn [app]. rewrite <- app_assoc. reflexivity. }
    destruct H4 as [E|E]; [left; rewrite E; exact SN|right]. exists ([2] ++ be16 (len s) ++ s ++ rest). split; [rewrite E; reflexivity|exact SN].
Qed.
Lemma other_one q : ~ 0 <= p_type q <= 2 -> one_frame_name q.
Proof. intros H. left. change PktMetadata with 2. lia. Qed.
Lemma plan_prefix (cs : list bytes) j k : (j < length cs)%nat -> exists rest, concat cs = (concat (firstn j cs) ++ firstn k (nth j cs [])) ++ rest.
Proof.
  intros H. pose proof (firstn_skipn j cs) as F. destruct (skipn j cs) as [|c l] eqn:E; [exfalso; apply (f_equal (@length _)) in E; rewrite skipn_length in E; cbn in E; lia|].
  assert (N : nth j cs [] = c).
  { rewrite <- F, app_nth2 by (rewrite firstn_length; lia). rewrite firstn_length, Nat.min_l, Nat.sub_diag by lia. reflexivity. }
  rewrite N. exists (skipn k c ++ concat l). transitivity (concat (firstn j cs ++ c :: l)); [f_equal; symmetry; exact F|]. rewrite concat_app. cbn [concat]. rewrite <- !app_assoc. f_equal. rewrite app_assoc, firstn_skipn. reflexivity.
Qed.
Lemma whole_tags ps : Forall (fun p => 0 <= p_ts p < 2 ^ 32 /\ exists d, tag_content p d /\ len d < 2 ^ 24) ps ->
  exists out ts, viewer_tags ps ts /\ reads_tags out ts.
Proof.
  induction 1 as [|p ps (Hp & d & Hc & Hl) _ (out & ts & A & B)]; [exists [], []; split; constructor|].
  exists (concat (tag_calls (tag_number (p_type p)) d (p_ts p)) ++ out), (tag_for (tag_number (p_type p)) (p_ts p) d :: ts).
  split; [constructor; [exists d; auto|exact A]|]. eapply RT_cons; [apply read_tag_calls; [apply tag_number_range|exact Hp|exact Hl]|exact B].
Qed.
Lemma mux_own_tags ps : forall x w, wf_mux (mx_muxer x) ->
  Forall (fun p => 0 <= p_ts p < 2 ^ 32 /\ exists d, tag_content p d /\ len d < 2 ^ 24) ps ->
  exists x' w' r out rest ts, mux_own (x, w) ps = (x', w', r) /\ w_out w' = w_out w ++ out /\ viewer_tags ps ts /\ reads_tags (out ++ rest) ts /\
    (r = Ok tt /\ rest = [] \/ r = Err EWrite) /\ (never_fails w -> r = Ok tt).
Proof.
  induction ps as [|p ps IH]; intros x w Hx HF; cbn [mux_own].
  - exists x, w, (Ok tt), [], [], []. rewrite app_nil_r. repeat split; auto; constructor.
  - inversion HF as [|? ? (Hp & d & Hc & Hl) HF']; subst. cbn [fst snd]. pose proof (content_payload _ _ Hc) as Hd.
    destruct (mixer_mux_ok x p (p_ts p) w d Hx Hp Hd) as (x1 & W1 & E1). rewrite E1.
    assert (TG : forall rest, read_tag (concat (tag_calls (tag_number (p_type p)) d (p_ts p)) ++ rest) = Some (tag_for (tag_number (p_type p)) (p_ts p) d, rest)).
    { intros rest. apply read_tag_calls; [apply tag_number_range|exact Hp|exact Hl]. }
    destruct (run_plan_any (tag_calls (tag_number (p_type p)) d (p_ts p)) (Ok tt) w) as (w1 & r1 & R1 & R0 & R2). rewrite R1.
    destruct R2 as [(-> & R2 & R3)|(-> & j & k & Hj & _ & Hs & R2)].
    + destruct (IH x1 w1 W1 HF') as (x' & w' & r & out & rest & ts & A & B & C & D & E & F).
      exists x', w', r, (concat (tag_calls (tag_number (p_type p)) d (p_ts p)) ++ out), rest, (tag_for (tag_number (p_type p)) (p_ts p) d :: ts).
      split; [exact A|]. split; [rewrite B, R2, <- app_assoc; reflexivity|]. split; [constructor; [exists d; auto|exact C]|]. split; [rewrite <- app_assoc; eapply RT_cons; [apply TG|exact D]|]. split; [exact E|].
      intros NF. apply F. intros n. rewrite R0. apply NF.
    + destruct (plan_prefix _ j k Hj) as (rest & HR). destruct (whole_tags ps HF') as (out & ts & A & B).
      exists x1, w1, (Err EWrite), (concat (firstn j (tag_calls (tag_number (p_type p)) d (p_ts p))) ++ firstn k (nth j (tag_calls (tag_number (p_type p)) d (p_ts p)) [])), (rest ++ out),
        (tag_for (tag_number (p_type p)) (p_ts p) d :: ts).
      split; [reflexivity|]. split; [exact R2|]. split; [constructor; [exists d; auto|exact A]|]. split; [rewrite app_assoc, <- HR; eapply RT_cons; [apply TG|exact B]|].
      split; [right; reflexivity|]. intros NF. rewrite NF in Hs. discriminate.
Qed.
(** The bodies for a viewer have FLV types. *)
Lemma groups_typed ps : Forall (fun p => 0 <= p_type p <= 2) (concat (body_groups ps)).
Proof.
  induction ps as [|p ps IH] using rev_ind; [constructor|]. rewrite body_groups_snoc. unfold add_body, body_kind_of.
  destruct (Z.eqb_spec (p_type p) 2); [exact IH|]. destruct (p_data p) as [|b0 [|b1 more]]; try exact IH. destruct (Z.eqb_spec (p_type p) 0) as [T|T].
  - destruct (len more <? 3); [exact IH|]. destruct (b0 / 16 =? 1).
    + destruct (b1 =? 0); [exact IH|]. rewrite concat_app. apply Forall_app. split; [exact IH|]. cbn. constructor; [lia|constructor].
    + destruct (b0 / 16 =? 2); [|exact IH]. destruct (snoc_inv (body_groups ps)) as [->|(l & g & E)]; [constructor|]. rewrite E in *. rewrite rev_app_distr. cbn [rev app].
      destruct (len g <=? 1024); [|exact IH]. rewrite app_last_snoc. rewrite concat_app in *. apply Forall_app in IH. destruct IH as [I1 I2]. apply Forall_app. split; [exact I1|].
      cbn [concat] in *. rewrite app_nil_r in *. apply Forall_app. split; [exact I2|]. constructor; [lia|constructor].
  - destruct (p_type p =? 1); [|exact IH]. destruct ((b0 / 16 =? 10) && (b1 =? 0)); exact IH.
Qed.
Lemma kind_typed p y : headed y -> has_kind (body_of y) p = true -> 0 <= p_type p <= 2.
Proof.
  unfold has_kind, body_kind_of. intros Hy. destruct (Z.eqb_spec (p_type p) 2); [lia|]. destruct (p_data p) as [|b0 [|b1 more]]; try (destruct Hy as [-> | [-> | ->]]; discriminate).
  destruct (Z.eqb_spec (p_type p) 0); [lia|]. destruct (Z.eqb_spec (p_type p) 1); [lia|]. destruct Hy as [-> | [-> | ->]]; discriminate.
Qed.
Lemma viewer_typed N ps : Forall (fun p => 0 <= p_type p <= 2) (to_viewer N ps).
Proof.
  assert (L : forall y, headed y -> Forall (fun p => 0 <= p_type p <= 2) (opt (latest (has_kind (body_of y)) ps))).
  { intros y Hy. unfold latest. destruct (find _ (rev ps)) as [p|] eqn:E; [|constructor]. apply find_some in E. constructor; [|constructor]. eapply kind_typed; [exact Hy|apply E]. }
  unfold to_viewer. apply Forall_app. split; [apply (L KMeta); unfold headed; auto|]. apply Forall_app. split; [apply (L KVideoSeq); unfold headed; auto|]. apply Forall_app.
  split; [apply (L KAudioSeq); unfold headed; auto|]. apply Forall_forall. intros p Hp. apply in_concat in Hp. destruct Hp as (g & Hg & Hp). apply in_skipn in Hg.
  pose proof (groups_typed ps) as G. rewrite Forall_forall in G. apply G, in_concat. exists g. auto.
Qed.

(** ** A run *)
Lemma spec_run_app {S} (at_ : S -> nat -> packet) N a : forall b h s,
  let '(h1, (s1, r1)) := spec_run at_ N h s a in let '(h2, (s2, r2)) := spec_run at_ N h1 s1 b in
  spec_run at_ N h s (a ++ b) = (h2, (s2, r1 ++ r2)).
Proof.
  induction a as [|o a IH]; intros b h s; cbn [spec_run app].
  - destruct (spec_run at_ N h s b) as [h2 [s2 r2]]. reflexivity.
  - destruct (spec_step at_ N h s o) as [h1 [s1 r]]. specialize (IH b h1 s1). destruct (spec_run at_ N h1 s1 a) as [h2 [s2 r2]].
    destruct (spec_run at_ N h2 s2 b) as [h3 [s3 r3]]. rewrite IH. reflexivity.
Qed.
Lemma spec_run_length {S} (at_ : S -> nat -> packet) N a : forall h s, length (snd (snd (spec_run at_ N h s a))) = length a.
Proof.
  induction a as [|o a IH]; intros h s; cbn [spec_run]; [reflexivity|]. destruct (spec_step at_ N h s o) as [h1 [s1 r]]. specialize (IH h1 s1).
  destruct (spec_run at_ N h1 s1 a) as [h2 [s2 r2]]. cbn [snd length] in *. f_equal. exact IH.
Qed.
Lemma relay_app a b : forall k i, relay k i (a ++ b) = relay k i a ++ relay (k + length (published a)) (i + viewers a) b.
Proof.
  induction a as [|[p|] a IH]; intros k i; cbn [app relay published flat_map viewers filter length].
  - rewrite !Nat.add_0_r. reflexivity.
  - destruct (demux p) as [p' r]. cbn [app]. f_equal. rewrite IH, app_assoc. do 2 f_equal; cbn [length app]; unfold published; lia.
  - cbn [app]. f_equal. rewrite IH. do 2 f_equal; unfold viewers; lia.
Qed.
Lemma published_app a b : published (a ++ b) = published a ++ published b.
Proof. unfold published. apply flat_map_app. Qed.
Lemma viewers_snoc_view a : viewers (a ++ [View]) = S (viewers a).
Proof. unfold viewers. rewrite filter_app, app_length. cbn. lia. Qed.
Lemma inv_run N B m0 es : (forall k, (k < length (published es))%nat -> B k = nth k (published es) (B k)) -> Forall publishable (published es) -> forall s0, fs_mixers s0 = m0 ->
  let y := spec_run fs_packets N [] s0 (relay 0 0 es) in Inv N B m0 (published es) (viewers es) (fst y) (fst (snd y)).
Proof.
  intros HB HP s0 H0. cbv zeta. induction es as [|e es IH] using rev_ind.
  - cbn. constructor; cbn.
    + intros y [-> | [-> | ->]]; reflexivity.
    + reflexivity.
    + constructor.
    + exists (fs_packets s0). split; [intros k; left; reflexivity|lia].
    + intros i _. rewrite H0. reflexivity.
  - rewrite published_app in HB, HP. apply Forall_app in HP. destruct HP as [HP1 HP2].
    assert (HB1 : forall k, (k < length (published es))%nat -> B k = nth k (published es) (B k)).
    { intros k Hk. rewrite (HB k) at 1 by (rewrite app_length; lia). apply app_nth1, Hk. }
    specialize (IH HB1 HP1). rewrite relay_app. cbn [Nat.add]. pose proof (spec_run_app fs_packets N (relay 0 0 es) (relay (length (published es)) (viewers es) [e]) [] s0) as R.
    destruct (spec_run fs_packets N [] s0 (relay 0 0 es)) as [h [s rs]]. cbn [fst snd] in IH.
    destruct e as [p|].
    + cbn [published flat_map app] in HB, HP2 |- *. rewrite published_app. cbn [published flat_map app].
      assert (HBp : B (length (published es)) = p).
      { rewrite (HB (length (published es))) by (rewrite app_length; cbn [length]; lia). rewrite app_nth2, Nat.sub_diag by lia. reflexivity. }
      assert (HBy : is_bytes (p_data p)) by (inversion HP2 as [|? ? Hx _]; apply Hx). replace (viewers (es ++ [Publish p])) with (viewers es) by (unfold viewers; rewrite filter_app, app_length; cbn; lia).
      cbn [relay] in R |- *. pose proof (C04_demux_exact p HBy) as D. destruct (demux p) as [p' r] eqn:ED. destruct r as [u|e| |]; try contradiction.
      * cbn [app spec_run spec_step] in R. replace (fs_packets (mkFS (upd (fs_packets s) (length (published es)) p') (fs_mixers s)) (length (published es))) with p' in R
          by (cbn [fs_packets]; unfold upd; rewrite Nat.eqb_refl; reflexivity).
        destruct (demux_kind p p' u HBy ED) as (x & K1 & K2). rewrite K1 in R.
        pose proof (inv_record N B m0 (published es) (viewers es) h s p x IH HBp K2) as I2. rewrite ED in I2. cbn [fst] in I2.
        destruct (record N h (Some x) (length (published es))) as [h2 r2]. cbn [fst] in I2. cbn [app]. rewrite R. cbn [fst snd]. exact I2.
      * cbn [app spec_run spec_step] in R. cbn [app]. rewrite R. cbn [fst snd]. pose proof (inv_skip N B m0 (published es) (viewers es) h s p IH HBp (no_demux_kind p p' e HBy ED)) as I2. rewrite ED in I2. exact I2.
    + rewrite published_app. cbn [published flat_map app]. rewrite app_nil_r, viewers_snoc_view. cbn [relay spec_run spec_step] in R |- *.
      destruct (iv_packets _ _ _ _ _ _ _ IH) as (h0 & M & E0).
      assert (HO : forall k, In k (pointer_replay N h) -> one_frame_name (h0 k)).
      { intros k Hk. apply in_replay in Hk. apply in_map_iff in Hk. destruct Hk as (i & <- & Hi). pose proof (iv_known _ _ _ _ _ _ _ IH) as KN. rewrite Forall_forall in KN. specialize (KN i Hi).
        rewrite (E0 _ KN), (HB1 _ KN). rewrite Forall_forall in HP1. specialize (HP1 _ (nth_In _ (B (snd i)) KN)). destruct HP1 as (Y & _ & T).
        destruct (demux_keeps _ Y) as (D1 & D2 & D3). destruct (Z_le_dec 0 (p_type (nth (snd i) (published es) (B (snd i))))) as [L|L].
        - destruct (Z_le_dec (p_type (nth (snd i) (published es) (B (snd i)))) 2) as [L2|L2].
          + destruct (T (conj L L2)) as (d & Td & _). eapply content_one; eauto.
          + apply other_one. rewrite D1. lia.
        - apply other_one. rewrite D1. lia. }
      destruct (serve_one (pointer_replay N h) (viewers es) h0 HO s M) as (_ & A2 & A3). destruct (call_each (flv_subscriber (viewers es)) (pointer_replay N h) s) as [s' r]. cbn [fst snd] in A2, A3.
      rewrite R. cbn [fst snd]. constructor; try apply IH.
      * exists h0. auto.
      * intros i Hi. rewrite A2 by lia. apply (iv_mixers _ _ _ _ _ _ _ IH). lia.
Qed.
(** Later events leave an earlier viewer alone. *)
Lemma call_other i j ks : i <> j -> forall s, fs_mixers (fst (call_each (flv_subscriber j) ks s)) i = fs_mixers s i.
Proof.
  intros H. induction ks as [|k ks IH]; intros s; cbn [call_each]; [reflexivity|].
  assert (E : fs_mixers (fst (flv_subscriber j k s)) i = fs_mixers s i).
  { unfold flv_subscriber. destruct (fs_mixers s j) as [x w]. destruct (mixer_mux x (fs_packets s k) (p_ts (fs_packets s k)) w) as [[x' p'] [w' r]]. cbn [fst fs_mixers]. unfold upd. destruct (Nat.eqb_spec i j); [contradiction|reflexivity]. }
  destruct (flv_subscriber j k s) as [s' [u|e| |]]; cbn [fst] in *; [rewrite IH|..]; exact E.
Qed.
Lemma later_other N i es : forall k j h s, (i < j)%nat -> fs_mixers (fst (snd (spec_run fs_packets N h s (relay k j es)))) i = fs_mixers s i.
Proof.
  induction es as [|[p|] es IH]; intros k j h s H; cbn [relay]; [reflexivity| |].
  - destruct (demux p) as [p' [u|e| |]]; cbn [app spec_run spec_step].
    2-4: specialize (IH (S k) j h (mkFS (upd (fs_packets s) k p') (fs_mixers s)) H); destruct (spec_run fs_packets N h _ (relay (S k) j es)) as [h2 [s2 r2]]; exact IH.
    destruct (record N h _ k) as [h1 r1]. specialize (IH (S k) j h1 (mkFS (upd (fs_packets s) k p') (fs_mixers s)) H). destruct (spec_run fs_packets N h1 _ (relay (S k) j es)) as [h2 [s2 r2]]. exact IH.
  - cbn [spec_run spec_step]. pose proof (call_other i j (pointer_replay N h) ltac:(lia) s) as C. destruct (call_each (flv_subscriber j) (pointer_replay N h) s) as [s1 r1]. cbn [fst] in C.
    specialize (IH k (S j) h s1 ltac:(lia)). destruct (spec_run fs_packets N h s1 (relay k (S j) es)) as [h2 [s2 r2]]. cbn [fst snd] in *. rewrite IH. exact C.
Qed.
