(** Lemmas on reading H.264 byte streams. *)
From Verif Require Import Base.Go Base.GoFacts Base.IO Proofs.IOFacts Model.Packet Model.Parsers Spec.Parsers Spec.H264 Proofs.Parsers Props.Parsers Props.H264 Spec.AnnexB.
Import ListNotations.
Local Open Scope list_scope.
Local Open Scope Z_scope.

Lemma legal_tail x n : legal_unit (x :: n) -> n <> [] -> legal_unit n.
Proof.
  intros (_ & L & C) Hn. split; [exact Hn|]. split; [intros a E; apply (L (x :: a)); rewrite E; reflexivity|].
  intros a b. destruct (C (x :: a) b) as [C1 C2]. split; intros E; [apply C1|apply C2]; rewrite E; reflexivity.
Qed.
Lemma one_unit_legal n : legal_unit n -> forall rest, rest = [] \/ at_end rest = true -> one_unit (n ++ rest) = (n, rest).
Proof.
  induction n as [|x n IH]; intros H rest HR; [destruct H as [H _]; congruence|]. cbn [app one_unit].
  assert (E : at_end (x :: n ++ rest) = false).
  { destruct H as (_ & L & C). unfold at_end. destruct n as [|y n].
    - cbn [app]. destruct rest as [|a [|b rest]]; try reflexivity. assert (x <> 0) by (intros ->; apply (L []); reflexivity). replace (x =? 0) with false by lia. reflexivity.
    - cbn [app]. destruct n as [|z n].
      + cbn [app]. destruct rest as [|b rest]; [reflexivity|]. assert (y <> 0) by (intros ->; apply (L [x]); reflexivity). replace (y =? 0) with false by lia. rewrite andb_false_r. reflexivity.
      + cbn [app]. destruct (C [] n) as [C1 C2]. destruct (Z.eqb_spec x 0) as [->|]; [|reflexivity]. destruct (Z.eqb_spec y 0) as [->|]; [|reflexivity].
        destruct (Z.eqb_spec z 0) as [->|]; [elim C1; reflexivity|]. destruct (Z.eqb_spec z 1) as [->|]; [elim C2; reflexivity|]. reflexivity. }
  rewrite E. destruct n as [|y n].
  - cbn [app]. destruct HR as [-> | HR]; [reflexivity|]. destruct rest as [|a rest]; [discriminate HR|]. cbn [one_unit]. rewrite HR. reflexivity.
  - rewrite (IH (legal_tail _ _ H ltac:(discriminate)) rest HR). reflexivity.
Qed.
Lemma annexb_app a b : annexb (a ++ b) = annexb a ++ annexb b.
Proof. unfold annexb. rewrite map_app, concat_app. reflexivity. Qed.
Lemma annexb_at_end us : annexb us = [] \/ at_end (annexb us) = true.
Proof. destruct us as [|u us]; [left; reflexivity|right; reflexivity]. Qed.
Lemma read_annexb us : Forall legal_unit us -> forall n, (length (annexb us) < n)%nat -> read_units_fuel n (annexb us) = Some us.
Proof.
  induction 1 as [|u us HU _ IH]; intros [|n] Hn; try lia; cbn [read_units_fuel]; [reflexivity|].
  assert (E : annexb (u :: us) = 0 :: 0 :: 0 :: 1 :: (u ++ annexb us)) by reflexivity. rewrite E in *. cbn [length] in Hn. rewrite app_length in Hn.
  change (forallb (fun b => b =? 0) (0 :: 0 :: 0 :: 1 :: u ++ annexb us)) with false. cbv iota.
  change (behind_prefix (0 :: 0 :: 0 :: 1 :: u ++ annexb us)) with (Some (u ++ annexb us)). cbv iota beta.
  rewrite (one_unit_legal u HU (annexb us) (annexb_at_end us)). rewrite IH by lia. reflexivity.
Qed.
Lemma legal_aud : legal_unit aud.
Proof.
  split; [discriminate|]. split; [intros [|a [|b [|c l]]] E; discriminate E|]. intros [|a [|b [|c l]]] r; split; intros E; discriminate E.
Qed.

(** The units of one picture. *)
Lemma filter_psets sets own nals : (forall n, In n nals -> is_idr n = false) -> picture sets own nals = filter is_slice_or_sei nals.
Proof.
  revert own. induction nals as [|n ns IH]; intros own H; [reflexivity|]. cbn [picture filter]. rewrite (H n (or_introl eq_refl)). 
  assert (IH' := fun own => IH own (fun m Hm => H m (or_intror Hm))). unfold is_pset, is_slice_or_sei in *.
  destruct ((nal_type n =? 7) || (nal_type n =? 8)) eqn:EP.
  - rewrite IH'. replace ((nal_type n =? 1) || (nal_type n =? 5) || (nal_type n =? 6)) with false by lia. reflexivity.
  - rewrite IH'. destruct (_ || _ || _); reflexivity.
Qed.
Lemma picture_idr sets pre idr post : forall own, (forall n, In n pre -> is_idr n = false) -> is_idr idr = true ->
  picture sets own (pre ++ idr :: post) =
  filter is_slice_or_sei pre ++ (match own ++ filter is_pset pre with [] => sets | l => l end) ++ filter is_slice_or_sei (idr :: post).
Proof.
  induction pre as [|n ns IH]; intros own H HI.
  - cbn [app picture filter]. rewrite HI, app_nil_r. assert (E : is_slice_or_sei idr = true) by (unfold is_idr in HI; unfold is_slice_or_sei; lia). rewrite E. destruct own; reflexivity.
  - cbn [app picture filter]. rewrite (H n (or_introl eq_refl)). assert (IH' := fun own => IH own (fun m Hm => H m (or_intror Hm)) HI).
    destruct (is_pset n) eqn:EP.
    + rewrite IH'. assert (is_slice_or_sei n = false) as -> by (unfold is_pset in EP; unfold is_slice_or_sei; lia). rewrite <- (app_assoc own [n]). reflexivity.
    + rewrite IH'. destruct (is_slice_or_sei n); reflexivity.
Qed.
Lemma converts_picture sets nals out : converts (annexb sets) nals out -> out = annexb (aud :: picture sets [] nals).
Proof.
  intros [l H|pre idr post H HI].
  - rewrite filter_psets by exact H. reflexivity.
  - rewrite picture_idr by assumption. cbn [app].
    assert (E : (if existsb is_pset pre then annexb (filter is_pset pre) else annexb sets) = annexb (match filter is_pset pre with [] => sets | l => l end)).
    { destruct (existsb is_pset pre) eqn:EX.
      - destruct (filter is_pset pre) eqn:EF; [|reflexivity]. apply existsb_exists in EX as (n & A & B). assert (X : In n (filter is_pset pre)) by (apply filter_In; auto). rewrite EF in X. elim X.
      - destruct (filter is_pset pre) as [|n l] eqn:EF; [reflexivity|]. assert (X : In n (filter is_pset pre)) by (rewrite EF; left; reflexivity). apply filter_In in X as [A B].
        assert (existsb is_pset pre = true) by (apply existsb_exists; eauto). congruence. }
    rewrite E. change delimiter with (annexb [aud]). rewrite <- !annexb_app. reflexivity.
Qed.
Lemma picture_legal sets nals : Forall legal_unit sets -> Forall legal_unit nals -> forall own, Forall legal_unit own -> Forall legal_unit (picture sets own nals).
Proof.
  intros HS. induction 1 as [|n ns Hn Hns IH]; intros own HO; [constructor|]. cbn [picture]. destruct (is_idr n).
  - apply Forall_app. split; [destruct own; assumption|]. constructor; [exact Hn|]. rewrite Forall_forall in *. intros m Hm. apply filter_In in Hm as [Hm _]. auto.
  - destruct (is_pset n); [apply IH, Forall_app; auto|]. destruct (is_slice_or_sei n); [constructor|]; auto.
Qed.
(** Streams. *)
Lemma annexb_header sets sps pps ext : annexb sets ++ annexb [sps; pps] ++ ext = annexb (sets ++ [sps; pps ++ ext]).
Proof. rewrite annexb_app. f_equal. unfold annexb. cbn [map concat]. rewrite !app_nil_r, <- !app_assoc. reflexivity. Qed.
Lemma stream_legal sets bs us : unit_stream sets bs us -> Forall legal_unit sets -> Forall legal_unit us.
Proof.
  induction 1 as [sets|sets b sps pps ext bs us HH H1 H2 _ IH|sets nals bs us _ _ _ _ HL _ IH]; intros HS; [constructor|apply IH, Forall_app; auto|].
  constructor; [exact legal_aud|]. apply Forall_app. split; [apply picture_legal; auto|auto].
Qed.
Lemma stream_converts sets bs us : unit_stream sets bs us -> exists outs, stream_converted (annexb sets) bs outs /\ Forall (fun o => snd o = true) outs /\ concat (map fst outs) = annexb us.
Proof.
  induction 1 as [sets|sets b sps pps ext bs us HH H1 H2 _ (outs & A & B & C)|sets nals bs us Hne HG HS H1 HL _ (outs & A & B & C)].
  - exists []. split; [constructor|]. split; [constructor|reflexivity].
  - exists (([], true) :: outs). split; [econstructor; [apply H_header; exact HH|rewrite annexb_header; exact A]|]. split; [constructor; auto|exact C].
  - assert (Hns : ~ starts_0001 (avcc nals)) by (intros X; apply avcc_start in X; [|exact HG]; destruct X as (n & ns & E & L); exact (H1 _ _ E L)).
    destruct (media_converted (mkH264 (annexb sets) []) nals Hne HG HS Hns) as (calls & CV & _). cbn [h_info] in CV.
    exists ((concat calls, true) :: outs). split; [econstructor; [apply H_units; eassumption|exact A]|]. split; [constructor; auto|].
    cbn [map concat fst]. rewrite C, (converts_picture _ _ _ CV). change (aud :: picture sets [] nals ++ us) with ((aud :: picture sets [] nals) ++ us). rewrite annexb_app. reflexivity.
Qed.
