(** Property C209: what every FLV mixer gets of one metadata packet, exactly. *)
From Coq Require Import String.
From Verif Require Import Base.Go Base.GoFacts Base.IO Model.AmfTypes Model.Amf3 Model.Amf0 Model.Metadata Model.Packet Model.Flv Spec.Amf Spec.AmfAll Spec.Amf3Ref Spec.Command Spec.FanMeta
  Proofs.IOFacts Proofs.AmfFacts Props.Fan Props.Command.
Import ListNotations.
Local Open Scope list_scope.
Local Open Scope Z_scope.

Lemma without_bytes p q : is_bytes p -> without_command p q -> is_bytes q.
Proof. intros HB [q0 _ (h & _ & E)|s _ _]; [|exact HB]. rewrite E in HB. apply is_bytes_app in HB. apply HB. Qed.
Lemma del_exactly p : is_bytes p -> (exists q, snd (del_meta_header decode0 (fresh (bytes_reader [])) p) = Ok q /\ without_command p q) \/
  ((forall q, snd (del_meta_header decode0 (fresh (bytes_reader [])) p) <> Ok q) /\ forall q, ~ without_command p q).
Proof.
  intros HB. pose proof (C180_del p HB) as D. destruct (C180_unique p HB) as (_ & U & _). destruct (snd (del_meta_header decode0 (fresh (bytes_reader [])) p)) as [q|e| |].
  - left. exists q. split; [reflexivity|exact D].
  - right. split; [discriminate|]. intros q [q0 H _|s H _]; exact (proj1 D _ H).
  - right. split; [discriminate|]. intros q [q0 H _|s H _]; exact (U _ H D).
  - destruct D.
Qed.

(** ** C209 *)
(** The mixer that comes after n others, which may have failed, does what it would do with a packet of its own that has lost the commands
    the others took away. *)
Theorem C209_fan_out : forall p js n j, p_type p = PktMetadata -> is_bytes (p_data p) -> nth_error js n = Some j ->
  exists q, after_mixers n (p_data p) q /\ nth_error (in_turn p js) n = Some (snd (run1 (set_data q p) j)).
Proof.
  intros p js n. revert p js. induction n as [|n IH]; intros p js j HT HB HJ.
  - destruct js as [|j0 js]; [discriminate|]. injection HJ as <-. exists (p_data p). split; [constructor|]. cbn [in_turn]. destruct (run1 p j0) as [p' o] eqn:E. cbn [nth_error]. replace (set_data (p_data p) p) with p by (destruct p; reflexivity). rewrite E. reflexivity.
  - destruct js as [|j0 js]; [discriminate|]. cbn [nth_error] in HJ. destruct (del_exactly (p_data p) HB) as [(q & E & W)|(N1 & N2)].
    + assert (ES : mux_select p = Ok (TagScriptDataAMF0, q)) by (rewrite select_meta by exact HT; rewrite E; reflexivity). destruct (run1_select p p j0 _ _ ES ES) as [_ HP].
      cbn [in_turn]. destruct (run1 p j0) as [p' o]. cbn [fst] in HP. subst p'. cbn [nth_error]. destruct (IH (set_data q p) js j HT) as (r & A & R); [exact (without_bytes _ _ HB W)|exact HJ|].
      exists r. split; [exact (Am_muxed _ _ _ _ W A)|]. exact R.
    + assert (ES : forall ty d, mux_select p <> Ok (ty, d)).
      { intros ty d. rewrite select_meta by exact HT. destruct (snd (del_meta_header decode0 (fresh (bytes_reader [])) (p_data p))) as [q|e| |]; [elim (N1 q eq_refl)| | |]; discriminate. }
      pose proof (run1_fails p j0 ES) as HP. cbn [in_turn]. destruct (run1 p j0) as [p' o]. cbn [fst] in HP. subst p'. cbn [nth_error]. destruct (IH p js j HT HB HJ) as (r & A & R). exists r. split; [exact (Am_refused _ _ _ N2 A)|exact R].
Qed.
Print Assumptions C209_fan_out.
(** What the others took away is determined. *)
Theorem C209_unique : forall n p q q', is_bytes p -> after_mixers n p q -> after_mixers n p q' -> q = q'.
Proof.
  intros n p q q' HB H. revert q'. induction H as [p|n p q r W _ IH|n p r N _ IH]; intros q' H'; inversion H' as [|? ? q2 ? W2 A2|? ? ? N2 A2]; subst; try reflexivity.
  - destruct (C180_unique p HB) as (_ & _ & U & _). pose proof (U _ _ W W2) as <-. apply IH; [exact (without_bytes _ _ HB W)|exact A2].
  - elim (N2 _ W).
  - elim (N _ W2).
  - apply IH; assumption.
Qed.
Print Assumptions C209_unique.
(** With the command k times in front of a name, the first k mixers take one away each; all mixers from the k-th on get the same. *)
Fixpoint commands (k : nat) (d : bytes) : bytes := match k with O => d | S k => amf0_string (str "@setDataFrame") ++ commands k d end.
Lemma command_removed d : d <> [] -> without_command (amf0_string (str "@setDataFrame") ++ d) d.
Proof. intros Hd. apply Wc_command; [|exists (amf0_string (str "@setDataFrame")); split; reflexivity]. apply (Tx_string (str "@setDataFrame") d); [vm_compute; congruence|discriminate]. Qed.
Theorem C209_commands : forall k n d, starts_with_name d -> after_mixers n (commands k d) (commands (k - n) d).
Proof.
  intros k n d Hd. assert (Dn : d <> []) by (destruct Hd as (s & rest & _ & _ & ->); discriminate). revert k. induction n as [|n IH]; intros k; [rewrite Nat.sub_0_r; constructor|]. destruct k as [|k].
  - cbn [commands Nat.sub]. apply Am_muxed with d; [|exact (IH 0%nat)]. destruct Hd as (s & rest & HL & HN & ->). apply (Wc_other _ s); [|exact HN]. unfold amf0_string. cbn [app]. rewrite <- app_assoc. apply Tx_string; [lia|]. intros X. apply app_eq_nil in X. destruct X as [-> _]. unfold len in HL. cbn [length] in HL. lia.
  - cbn [commands Nat.sub]. apply Am_muxed with (commands k d); [|apply IH]. apply command_removed. destruct k; [exact Dn|discriminate].
Qed.
Print Assumptions C209_commands.

(** Three mixers, the command twice in front: tags with one command, and twice with none. *)
Definition meta209 : packet := mkP PktMetadata 0 0 0 None (commands 2 (amf0_string (str "onMetaData") ++ [5])) None.
Example C209_example : exists x w, let o := in_turn meta209 [(x, 0, w); (x, 0, w); (x, 0, w)] in
  map (fun r => (len (w_out (fst (snd r))), snd (snd r))) o = [(45, Ok tt); (29, Ok tt); (29, Ok tt)].
Proof. exists new_mixer, buffer0. vm_compute. reflexivity. Qed.
