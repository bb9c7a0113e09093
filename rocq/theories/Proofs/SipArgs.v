(** Lemmas for C144 and C145: Args histories and CRLFString. *)
From Coq Require Import String Permutation.
From Verif Require Import Base.Go Base.GoFacts Base.IO Base.Text Model.Sip Spec.Sip Proofs.Text Proofs.Sip Proofs.SipHeaders.
Import ListNotations. Local Open Scope list_scope. Local Open Scope Z_scope.

Lemma mget_del k k' a : mget k (args_del a k') = if bytes_eqb k k' then None else mget k a.
Proof.
  unfold args_del. induction a as [|[k0 v0] a IH]; cbn [filter mget fst]; [now destruct (bytes_eqb k k')|].
  destruct (bytes_eqb k' k0) eqn:E0; cbn [negb].
  - apply bytes_eqb_eq in E0. subst k0. rewrite IH. destruct (bytes_eqb k k'); reflexivity.
  - cbn [mget]. rewrite IH. destruct (bytes_eqb k k') eqn:E; [|reflexivity]. apply bytes_eqb_eq in E. subst k'. now rewrite E0.
Qed.
Lemma keys_filter {A} f (a : smap A) : NoDup (map fst a) -> NoDup (map fst (filter f a)).
Proof.
  induction a as [|p a IH]; cbn [filter map]; intros H; [constructor|]. inversion H as [|x l N1 N2]; subst.
  destruct (f p); [|auto]. cbn [map]. constructor; [|auto]. intros C. apply N1. apply in_map_iff in C. destruct C as (q & Eq & Hq).
  apply filter_In in Hq. rewrite <- Eq. now apply in_map.
Qed.
Lemma keys_mset {A} k (v : A) m : forall x, In x (map fst (mset k v m)) <-> x = k \/ In x (map fst m).
Proof.
  induction m as [|[k0 v0] m IH]; intros x; cbn [mset map In fst]; [intuition|]. destruct (bytes_eqb k k0) eqn:E; cbn [map In fst].
  - apply bytes_eqb_eq in E. subst. intuition.
  - rewrite IH. intuition.
Qed.
Lemma nodup_mset {A} k (v : A) m : NoDup (map fst m) -> NoDup (map fst (mset k v m)).
Proof.
  induction m as [|[k0 v0] m IH]; cbn [mset map fst]; intros H; [repeat constructor; auto|]. inversion H as [|x l N1 N2]; subst.
  destruct (bytes_eqb k k0) eqn:E; cbn [map fst]; constructor; auto.
  - apply bytes_eqb_eq in E. now subst.
  - rewrite keys_mset. apply bytes_eqb_neq in E. intuition congruence.
Qed.

(** The lines of CRLFString. *)
Definition line (p : bytes * bytes) : bytes := fst p ++ 61 :: snd p.
Definition filled (p : bytes * bytes) : Prop := plain_param p /\ snd p <> [].
Lemma line_entry p : filled p -> line p = entry p.
Proof. destruct p as [k [|c v]]; intros [_ H]; [now elim H|reflexivity]. Qed.
Lemma plain_line p : plain_param p -> line p <> [] /\ Forall graphic (line p) /\ quiet (line p).
Proof.
  destruct p as [k [|c v]]; intros H; [|exact (plain_entry _ H)]. destruct (plain_entry _ H) as [Hn [Hg Hq]]. unfold entry, line in *. cbn [fst snd] in *.
  split; [destruct k; discriminate|]. split; apply Forall_app; (split; [assumption|repeat constructor; unfold graphic; lia]).
Qed.
Lemma crlf_lines p a : crlf_string (p :: a) = (line p ++ flat_map (fun q => 13 :: 10 :: line q) a) ++ [13; 10].
Proof.
  revert p. induction a as [|q a IH]; intros p.
  - unfold crlf_string, line. cbn [flat_map app]. rewrite !app_nil_r. rewrite <- app_assoc. reflexivity.
  - unfold crlf_string in *. cbn [flat_map] in *. rewrite (IH q). unfold line. repeat (rewrite <- ?app_assoc; cbn [app]). reflexivity.
Qed.
Lemma graphic_solid s : s <> [] -> Forall graphic s -> solid is_space s.
Proof.
  intros Hn H. apply solid_none. eapply Forall_impl; [|exact H]. intros c Hc. unfold graphic in Hc. rewrite space_ascii by (unfold ascii; lia). unfold btw. lia.
Qed.
Lemma trim_cr s : s <> [] -> Forall graphic s -> trim_space (s ++ [13]) = s.
Proof.
  intros Hn H. rewrite trim_space_ascii by (apply Forall_app; split; [now apply graphic_ascii|repeat constructor; unfold ascii; lia]).
  change (s ++ [13]) with ([] ++ s ++ [13]). apply trim_by_wrap; [constructor|repeat constructor|now apply graphic_solid].
Qed.
Lemma parse_list_lines a : forall p out, Forall plain_param (p :: a) ->
  parse_list_loop (line p ++ flat_map (fun q => 13 :: 10 :: line q) a) false false [] out = out ++ map line (p :: a).
Proof.
  induction a as [|q a IH]; intros p out H; pose proof (Forall_inv H) as Hf; pose proof (plain_line _ Hf) as [Hn [Hg Hq]].
  - cbn [flat_map map]. rewrite parse_list_quiet by assumption. cbn [parse_list_loop]. rewrite app_nil_r.
    destruct (rev (line p)) as [|x l] eqn:E.
    + elim Hn. rewrite <- (rev_involutive (line p)), E. reflexivity.
    + rewrite <- E, rev_involutive, encode_ascii by now apply graphic_ascii. now rewrite graphic_trim.
  - cbn [flat_map map app]. rewrite parse_list_quiet by assumption. cbn [parse_list_loop]. change ((13 =? 44) || (13 =? 59) || (13 =? 10)) with false. change (13 =? 34) with false.
    change ((10 =? 44) || (10 =? 59) || (10 =? 10)) with true. cbv iota.
    rewrite app_nil_r. cbn [rev]. rewrite rev_involutive, encode_ascii by (apply Forall_app; split; [now apply graphic_ascii|repeat constructor; unfold ascii; lia]).
    rewrite trim_cr by assumption. rewrite IH by now inversion H. rewrite <- app_assoc. reflexivity.
Qed.
Lemma lines_ascii a : forall p, Forall plain_param (p :: a) -> Forall ascii (line p ++ flat_map (fun q => 13 :: 10 :: line q) a).
Proof.
  induction a as [|q a IH]; intros p H; pose proof (Forall_inv H) as Hf; pose proof (plain_line _ Hf) as [Hn [Hg Hq]];
    apply Forall_app; (split; [now apply graphic_ascii|]); [constructor|].
  cbn [flat_map app]. constructor; [unfold ascii; lia|]. constructor; [unfold ascii; lia|]. apply IH. now inversion H.
Qed.
Lemma lines_solid a : forall p, Forall plain_param (p :: a) -> solid is_space (line p ++ flat_map (fun q => 13 :: 10 :: line q) a).
Proof.
  intros p H. assert (G : forall c, graphic c -> is_space c = false) by (intros c Hc; unfold graphic in Hc; rewrite space_ascii by (unfold ascii; lia); unfold btw; lia).
  assert (L : forall a p, Forall plain_param (p :: a) -> exists s c, line p ++ flat_map (fun q => 13 :: 10 :: line q) a = s ++ [c] /\ graphic c).
  { clear -G. induction a as [|q a IH]; intros p H; pose proof (Forall_inv H) as Hf; pose proof (plain_line _ Hf) as [Hn [Hg Hq]].
    - cbn [flat_map]. rewrite app_nil_r. destruct (exists_last Hn) as (s & c & E). rewrite E in *. exists s, c. split; [reflexivity|]. apply Forall_app in Hg. destruct Hg as [_ Hg]. now apply Forall_inv in Hg.
    - destruct (IH q) as (s & c & E & Hc); [now inversion H|]. cbn [flat_map app]. rewrite E. exists (line p ++ 13 :: 10 :: s), c. split; [|assumption].
      rewrite <- app_assoc. reflexivity. }
  destruct (L a p H) as (s & c & E & Hc). pose proof (Forall_inv H) as Hf. pose proof (plain_line _ Hf) as [Hn [Hg Hq]].
  destruct (line p) as [|x e] eqn:Ee; [now elim Hn|]. apply Forall_inv in Hg.
  cbn [app] in *. unfold solid. split; [now apply G|]. rewrite E, last_last. now apply G.
Qed.
Lemma parse_list_crlf a : Forall plain_param a -> parse_list (trim_space (crlf_string a)) = map line a.
Proof.
  intros Hp. destruct a as [|p a]; [reflexivity|]. rewrite crlf_lines. unfold parse_list. pose proof (lines_ascii a p Hp) as Ha.
  assert (T : trim_space ((line p ++ flat_map (fun q => 13 :: 10 :: line q) a) ++ [13; 10]) = line p ++ flat_map (fun q => 13 :: 10 :: line q) a).
  { rewrite trim_space_ascii by (apply Forall_app; split; [assumption|repeat constructor; unfold ascii; lia]).
    match goal with |- trim_by _ (?l ++ ?e) = _ => change (l ++ e) with ([] ++ l ++ e) end. apply trim_by_wrap; [constructor|repeat constructor|now apply lines_solid]. }
  rewrite T, runes_ascii by assumption. rewrite parse_list_lines by assumption. reflexivity.
Qed.
Lemma parse_crlf a : NoDup (map fst a) -> Forall filled a -> parse_args_pairs (crlf_string a) = Ok a.
Proof.
  intros Hn Hp. assert (Hp' : Forall plain_param a) by (eapply Forall_impl; [|exact Hp]; intros q [H _]; exact H).
  unfold parse_args_pairs. rewrite parse_list_crlf by assumption.
  replace (map line a) with (map entry a) by (apply map_ext_in; intros q Hq; symmetry; apply line_entry; rewrite Forall_forall in Hp; auto).
  rewrite parse_pairs_entries; [reflexivity|assumption|assumption|intros k Hk []; reflexivity].
Qed.
Lemma parse_crlf_empty a : Forall plain_param a -> Exists (fun p => snd p = []) a -> parse_args_pairs (crlf_string a) = Panic.
Proof.
  intros Hp He. unfold parse_args_pairs. rewrite parse_list_crlf by assumption. destruct (parse_pairs_cases (map line a) new_args) as [[E _]|[_ N]]; [exact E|].
  elim N. apply Exists_exists in He. destruct He as ([k v] & Hi & Hv). cbn in Hv. subst v. apply Exists_exists. exists (line (k, [])). split; [now apply in_map|].
  exists k. rewrite Forall_forall in Hp. destruct (Hp _ Hi) as [_ [_ [W _]]]. split; [|left; reflexivity].
  eapply Forall_impl; [|exact W]. cbn. intros c; tauto.
Qed.
