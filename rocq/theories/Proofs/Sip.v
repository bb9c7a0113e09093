(** Proofs about the SIP field scanners and parameters. *)
From Coq Require Import String Permutation.
From Verif Require Import Base.Go Base.GoFacts Base.IO Base.Text Model.Sip Spec.Sip Proofs.Text.
Import ListNotations. Local Open Scope list_scope. Local Open Scope Z_scope.
Local Ltac Zify.zify_post_hook ::= Z.div_mod_to_equations.

(** * Substring *)
Lemma between_from_spec v : forall i a b, between_from i v a b = firstn (Z.to_nat (b - Z.max a i)) (skipn (Z.to_nat (a - i)) v).
Proof.
  induction v as [|c v IH]; intros i a b; cbn [between_from]; [now rewrite skipn_nil, firstn_nil|]. rewrite IH.
  destruct ((a <=? i) && (i <? b)) eqn:E.
  - replace (Z.to_nat (a - i)) with 0%nat by lia. replace (Z.to_nat (a - (i + 1))) with 0%nat by lia. cbn [skipn].
    replace (Z.to_nat (b - Z.max a i)) with (S (Z.to_nat (b - Z.max a (i + 1)))) by lia. reflexivity.
  - destruct (Z_lt_le_dec i a) as [H|H].
    + replace (Z.to_nat (a - i)) with (S (Z.to_nat (a - (i + 1)))) by lia. cbn [skipn]. do 2 f_equal. lia.
    + replace (Z.to_nat (b - Z.max a (i + 1))) with 0%nat by lia. replace (Z.to_nat (b - Z.max a i)) with 0%nat by lia. reflexivity.
Qed.
Lemma substring_between v from to : substring v from to = Ok (between v (Z.max from 0) (Z.max to 0)).
Proof.
  unfold substring, between. rewrite between_from_spec. cbv zeta.
  replace (if from <? 0 then 0 else from) with (Z.max from 0) by (destruct (from <? 0) eqn:E; lia).
  replace (if to <? 0 then 0 else to) with (Z.max to 0) by (destruct (to <? 0) eqn:E; lia).
  rewrite Z.sub_0_r. replace (Z.max (Z.max from 0) 0) with (Z.max from 0) by lia.
  set (a := Z.max from 0). set (b := Z.max to 0). assert (Ha : 0 <= a) by lia. assert (Hb : 0 <= b) by lia.
  destruct ((a >? len v) || (a >? b)) eqn:E.
  - f_equal. destruct (Z_lt_le_dec b a); [replace (Z.to_nat (b - a)) with 0%nat by lia; reflexivity|].
    rewrite skipn_all2; [now rewrite firstn_nil|]. unfold len in E. lia.
  - destruct (b >? len v) eqn:E2.
    + unfold go_slice. replace (_ && _) with true by lia. f_equal. unfold slice.
      rewrite !firstn_all2; [reflexivity| |]; rewrite skipn_length; unfold len in *; lia.
    + unfold go_slice. replace (_ && _) with true by lia. reflexivity.
Qed.

(** * Parameters *)
Definition entry (p : bytes * bytes) : bytes := match snd p with [] => fst p | v => fst p ++ 61 :: v end.
Lemma semicolon_entries a : semicolon_string a = flat_map (fun p => 59 :: entry p) a.
Proof.
  unfold semicolon_string. apply flat_map_ext. intros [k v]. unfold entry. cbn [fst snd]. destruct v; reflexivity.
Qed.
(** A piece of text the list splitter does not look into. *)
Definition quiet (s : list Z) : Prop := Forall (fun c => c <> 44 /\ c <> 59 /\ c <> 10 /\ c <> 34) s.
Lemma parse_list_quiet s rest b out : quiet s ->
  parse_list_loop (s ++ rest) false false b out = parse_list_loop rest false false (rev s ++ b) out.
Proof.
  intros H. revert b. induction H as [|c s Hc Hs IH]; intros b; [reflexivity|]. cbn [app parse_list_loop].
  replace ((c =? 44) || (c =? 59) || (c =? 10)) with false by lia. replace (c =? 34) with false by lia.
  rewrite IH. f_equal. cbn [rev]. now rewrite <- app_assoc.
Qed.
Lemma without_in bad s c : without bad s -> In c s -> ~ In c bad.
Proof. intros H. unfold without in H. rewrite Forall_forall in H. auto. Qed.
Lemma plain_entry p : plain_param p -> entry p <> [] /\ Forall graphic (entry p) /\ quiet (entry p).
Proof.
  destruct p as [k v]. intros [Hk [Hg [Hw [Hg2 Hw2]]]]. cbn [fst snd] in *. unfold entry. cbn [fst snd].
  assert (Qk : quiet k).
  { unfold quiet. rewrite Forall_forall in *. intros c Hc. specialize (Hg _ Hc). pose proof (without_in _ _ _ Hw Hc) as N. unfold graphic in Hg.
    cbn in N. lia. }
  destruct v as [|c v]; [auto|]. split; [destruct k; discriminate|]. split.
  - apply Forall_app. split; [assumption|]. constructor; [unfold graphic; lia|assumption].
  - apply Forall_app. split; [assumption|]. constructor; [lia|]. rewrite Forall_forall in *. intros d Hd. specialize (Hg2 _ Hd).
    pose proof (without_in _ _ _ Hw2 Hd) as N. unfold graphic in Hg2. cbn in N. lia.
Qed.
Lemma graphic_ascii s : Forall graphic s -> Forall ascii s.
Proof. apply Forall_impl. unfold graphic, ascii. lia. Qed.
Lemma graphic_trim s : Forall graphic s -> trim_space s = s.
Proof.
  intros H. rewrite trim_space_ascii by now apply graphic_ascii. apply trim_by_solid, solid_none. eapply Forall_impl; [|exact H].
  intros c Hc. unfold graphic in Hc. rewrite space_ascii by (unfold ascii; lia). unfold btw. lia.
Qed.
Lemma parse_list_entries a : forall p out, Forall plain_param (p :: a) ->
  parse_list_loop (entry p ++ flat_map (fun p => 59 :: entry p) a) false false [] out = out ++ map entry (p :: a).
Proof.
  induction a as [|q a IH]; intros p out H; pose proof (plain_entry _ (Forall_inv H)) as [Hn [Hg Hq]].
  - cbn [flat_map map]. rewrite parse_list_quiet by assumption. cbn [parse_list_loop]. rewrite app_nil_r.
    destruct (rev (entry p)) as [|x l] eqn:E.
    + elim Hn. rewrite <- (rev_involutive (entry p)), E. reflexivity.
    + rewrite <- E, rev_involutive, encode_ascii by now apply graphic_ascii. now rewrite graphic_trim.
  - cbn [flat_map map app]. rewrite parse_list_quiet by assumption. cbn [parse_list_loop]. change ((59 =? 44) || (59 =? 59) || (59 =? 10)) with true. cbv iota.
    rewrite app_nil_r, rev_involutive, encode_ascii, graphic_trim by (assumption || now apply graphic_ascii).
    rewrite IH by now inversion H. rewrite <- app_assoc. reflexivity.
Qed.
Lemma parse_pair_entry m p : plain_param p -> parse_pair m (entry p) = Ok (mset (fst p) (snd p) m).
Proof.
  destruct p as [k v]. intros [Hk [Hg [Hw [Hg2 Hw2]]]]. unfold parse_pair, entry. cbn [fst snd] in *.
  assert (Ke : Forall (fun x => x <> 61) k).
  { rewrite Forall_forall in *. intros c Hc. pose proof (without_in _ _ _ Hw Hc) as N. cbn in N. lia. }
  destruct v as [|c v]; [rewrite cut_none by assumption; reflexivity|]. rewrite cut_app by assumption.
  unfold go_at. rewrite len_cons. pose proof (len_nonneg v). replace (_ && _) with true by lia. cbn [bind].
  change (at_ (c :: v) 0) with c. pose proof (Forall_inv Hw2) as N. cbn in N. replace (c =? 34) with false by lia. reflexivity.
Qed.
Lemma parse_pairs_entries a : forall m, Forall plain_param a -> NoDup (map fst a) -> (forall k, In k (map fst a) -> ~ In k (map fst m)) ->
  parse_pairs m (map entry a) = Ok (m ++ a).
Proof.
  induction a as [|[k v] a IH]; intros m Hp Hn Hd; cbn [map parse_pairs]; [now rewrite app_nil_r|].
  rewrite parse_pair_entry by now inversion Hp. cbn [bind fst snd]. cbn [map fst] in Hn, Hd. inversion Hn as [|x l N1 N2]; subst.
  rewrite mset_app by (apply Hd; now left). rewrite IH.
  - now rewrite <- app_assoc.
  - now inversion Hp.
  - assumption.
  - intros k' Hk' C. rewrite map_app in C. apply in_app_or in C. destruct C as [C|[C|[]]].
    + now apply (Hd k'); [right|].
    + cbn in C. subst. contradiction.
Qed.
Lemma parse_args_semicolon a : plain_args a -> a <> [] -> parse_args (semicolon_string a) = Ok a.
Proof.
  intros [Hn Hp] Hne. rewrite semicolon_entries. destruct a as [|p a]; [congruence|]. cbn [flat_map app]. unfold parse_args. cbn [cut].
  change (59 =? 59) with true. cbv iota. unfold parse_args_pairs, parse_list.
  assert (Hs : Forall graphic (entry p ++ flat_map (fun p => 59 :: entry p) a)).
  { clear Hn Hne. apply Forall_app. split; [apply plain_entry; now inversion Hp|]. inversion Hp as [|x l _ Ha]; subst. clear Hp.
    induction Ha as [|q a Hq Ha IH]; [constructor|]. cbn [flat_map app]. constructor; [unfold graphic; lia|]. apply Forall_app. split; [now apply plain_entry|assumption]. }
  rewrite graphic_trim by assumption. rewrite runes_ascii by now apply graphic_ascii. rewrite parse_list_entries by assumption. cbn [app].
  rewrite parse_pairs_entries by (assumption || (intros k Hk []; reflexivity)). reflexivity.
Qed.
Lemma semicolon_head a : semicolon_string a = [] \/ exists t, semicolon_string a = 59 :: t.
Proof. rewrite semicolon_entries. destruct a as [|p a]; [now left|]. right. cbn. eauto. Qed.
(** What the three address parsers do with the text of the parameters. *)
Lemma args_tail a : plain_args a ->
  match semicolon_string a with [] => Ok new_args | _ => parse_args (semicolon_string a) end = Ok a.
Proof.
  intros H. destruct a as [|p a]; [reflexivity|]. rewrite (parse_args_semicolon (p :: a)) by (assumption || discriminate).
  rewrite semicolon_entries. reflexivity.
Qed.

(** * CSeq *)
Lemma cseq_method f rest id m : (length rest < f)%nat -> cseq_loop f rest FMethod id m = Ok (id, m ++ rest).
Proof.
  revert f m. induction rest as [|c t IH]; intros [|f] m H; cbn [length] in H; try lia; cbn [cseq_loop]; [now rewrite app_nil_r|].
  rewrite IH by lia. now rewrite <- app_assoc.
Qed.
Lemma cseq_id f a rest id m : Forall (fun c => c <> 32) a -> (length (a ++ 32%Z :: rest) < f)%nat ->
  cseq_loop f (a ++ 32 :: rest) FID id m = Ok (id ++ a, m ++ rest).
Proof.
  intros H. revert f id. induction H as [|c a Hc Ha IH]; intros [|f] id Hf; cbn [app length] in Hf; try lia; cbn [app cseq_loop].
  - change (32 =? 32) with true. cbv iota. rewrite cseq_method by lia. now rewrite app_nil_r.
  - replace (c =? 32) with false by lia. rewrite IH by lia. now rewrite <- app_assoc.
Qed.
Lemma cseq_no_space f a id m : Forall (fun c => c <> 32) a -> (length a < f)%nat -> cseq_loop f a FID id m = Ok (id ++ a, m).
Proof.
  intros H. revert f id. induction H as [|c a Hc Ha IH]; intros [|f] id Hf; cbn [length] in Hf; try lia; cbn [cseq_loop].
  - now rewrite app_nil_r.
  - replace (c =? 32) with false by lia. rewrite IH by lia. now rewrite <- app_assoc.
Qed.
Lemma new_cseq_split a b : Forall (fun c => c <> 32) a -> new_cseq (a ++ 32 :: b) = Ok (mkCseq a b (a ++ 32 :: b)).
Proof. intros H. unfold new_cseq. rewrite cseq_id by (assumption || lia). reflexivity. Qed.
Lemma new_cseq_no_space a : Forall (fun c => c <> 32) a -> new_cseq a = Ok (mkCseq a [] a).
Proof. intros H. unfold new_cseq. rewrite cseq_no_space by (assumption || lia). reflexivity. Qed.
Lemma new_cseq_total s : exists q, new_cseq s = Ok q.
Proof.
  destruct (cut 32 s) as [[a b]|] eqn:E.
  - apply cut_some in E. destruct E as [-> H]. rewrite new_cseq_split by assumption. eauto.
  - apply cut_none_inv in E. rewrite new_cseq_no_space by assumption. eauto.
Qed.

(** * More fuel changes nothing *)
Lemma req_mono f : forall f' rest st ty us ho po x, (f <= f')%nat ->
  req_loop f rest st ty us ho po = Ok x -> req_loop f' rest st ty us ho po = Ok x.
Proof.
  induction f as [|f IH]; intros [|f'] rest st ty us ho po x Hf; try lia; try discriminate. cbn [req_loop].
  destruct rest as [|c t]; [auto|]. destruct (c =? 59); [auto|].
  destruct st; repeat (match goal with |- context [if ?b then _ else _] => destruct b end); apply IH; lia.
Qed.
Lemma via_mono f : forall f' rest st tr ho po x, (f <= f')%nat ->
  via_loop f rest st tr ho po = Ok x -> via_loop f' rest st tr ho po = Ok x.
Proof.
  induction f as [|f IH]; intros [|f'] rest st tr ho po x Hf; try lia; try discriminate. cbn [via_loop].
  destruct rest as [|c t]; [auto|]. destruct (c =? 59); [auto|]. cbv zeta.
  destruct st; repeat (match goal with |- context [if ?b then _ else _] => destruct b end); apply IH; lia.
Qed.
Lemma user_mono f : forall f' rest st ty na us ho po x, (f <= f')%nat ->
  user_loop f rest st ty na us ho po = Ok x -> user_loop f' rest st ty na us ho po = Ok x.
Proof.
  induction f as [|f IH]; intros [|f'] rest st ty na us ho po x Hf; try lia; try discriminate. cbn [user_loop].
  destruct rest as [|c t]; [auto|]. destruct (c =? 59); [auto|].
  destruct st; repeat (match goal with |- context [if ?b then _ else _] => destruct b end); apply IH; lia.
Qed.

(** * Termination of the scanners *)
Ltac split_ifs := repeat (match goal with |- context [if ?b then _ else _] => destruct b eqn:? end).
Lemma skipn_shorter {A} n (c : A) t : (length (skipn (S n) (c :: t)) <= length t)%nat.
Proof. cbn [skipn]. rewrite skipn_length. lia. Qed.
Lemma req_total f : forall rest st ty us ho po, (length rest < f)%nat -> exists x, req_loop f rest st ty us ho po = Ok x.
Proof.
  induction f as [|f IH]; intros rest st ty us ho po Hf; [lia|]. cbn [req_loop]. destruct rest as [|c t]; [eauto|].
  cbn [length] in Hf. destruct (c =? 59); [eauto|].
  destruct st; split_ifs; apply IH; try (pose proof (skipn_shorter 3 c t); pose proof (skipn_shorter 4 c t)); lia.
Qed.
Lemma via_total f : forall rest st tr ho po, (length rest < f)%nat -> exists x, via_loop f rest st tr ho po = Ok x.
Proof.
  induction f as [|f IH]; intros rest st tr ho po Hf; [lia|]. cbn [via_loop]. destruct rest as [|c t]; [eauto|].
  cbn [length] in Hf. cbv zeta. destruct (c =? 59); [eauto|].
  destruct st; split_ifs; apply IH; repeat rewrite skipn_length; cbn [length]; lia.
Qed.
Definition user_measure (rest : bytes) (st : field) : nat := 2 * length rest + match st with FName => 0 | _ => 1 end.
Lemma user_total f : forall rest st ty na us ho po, (user_measure rest st < f)%nat -> exists x, user_loop f rest st ty na us ho po = Ok x.
Proof.
  unfold user_measure.
  induction f as [|f IH]; intros rest st ty na us ho po Hf; [lia|]. cbn [user_loop]. destruct rest as [|c t]; [eauto|].
  cbn [length] in Hf. destruct (c =? 59); [eauto|].
  destruct st; split_ifs; apply IH; repeat rewrite skipn_length; cbn [length]; lia.
Qed.

(** * The text of an address *)
Lemma req_user f u rest ty us ho po : Forall (fun c => c <> 59 /\ c <> 64) u ->
  req_loop (length u + f) (u ++ rest) FUser ty us ho po = req_loop f rest FUser ty (us ++ u) ho po.
Proof.
  intros H. revert us. induction H as [|c u Hc Hu IH]; intros us; cbn [app length Nat.add]; [now rewrite app_nil_r|].
  cbn [req_loop]. replace (c =? 59) with false by lia. replace (c =? 64) with false by lia. rewrite IH. now rewrite <- app_assoc.
Qed.
Lemma req_host f u rest ty us ho po : Forall (fun c => c <> 59 /\ c <> 58) u ->
  req_loop (length u + f) (u ++ rest) FHost ty us ho po = req_loop f rest FHost ty us (ho ++ u) po.
Proof.
  intros H. revert ho. induction H as [|c u Hc Hu IH]; intros ho; cbn [app length Nat.add]; [now rewrite app_nil_r|].
  cbn [req_loop]. replace (c =? 59) with false by lia. replace (c =? 58) with false by lia. rewrite IH. now rewrite <- app_assoc.
Qed.
Lemma req_port f u rest ty us ho po : Forall (fun c => c <> 59) u ->
  req_loop (length u + f) (u ++ rest) FPort ty us ho po = req_loop f rest FPort ty us ho (po ++ u).
Proof.
  intros H. revert po. induction H as [|c u Hc Hu IH]; intros po; cbn [app length Nat.add]; [now rewrite app_nil_r|].
  cbn [req_loop]. replace (c =? 59) with false by lia. rewrite IH. now rewrite <- app_assoc.
Qed.
Lemma req_end f a st ty us ho po : req_loop (S f) (semicolon_string a) st ty us ho po = Ok (semicolon_string a, ty, us, ho, po).
Proof. destruct (semicolon_head a) as [E|[t E]]; rewrite E; reflexivity. Qed.
Lemma req_scheme f t rest us ho po : scheme t ->
  req_loop (S f) (t ++ 58 :: rest) FBase (str "sip") us ho po = req_loop f rest FUser t us ho po.
Proof. intros [-> | [-> | ->]]; reflexivity. Qed.
Lemma req_full t u h p a : scheme t -> without [64; 59] u -> without [58; 59] h -> without [59] p -> plain_args a ->
  exists f, req_loop f (t ++ 58 :: u ++ 64 :: h ++ port_part p ++ semicolon_string a) FBase (str "sip") [] [] []
    = Ok (semicolon_string a, t, u, h, p).
Proof.
  intros Ht Hu Hh Hp Ha.
  assert (Hu' : Forall (fun c => c <> 59 /\ c <> 64) u) by (eapply Forall_impl; [|exact Hu]; cbn; intros; lia).
  assert (Hh' : Forall (fun c => c <> 59 /\ c <> 58) h) by (eapply Forall_impl; [|exact Hh]; cbn; intros; lia).
  assert (Hp' : Forall (fun c => c <> 59) p) by (eapply Forall_impl; [|exact Hp]; cbn; intros; lia).
  destruct p as [|c p].
  - exists (S (length u + S (length h + 1))). rewrite req_scheme, req_user by assumption. cbn [req_loop]. change (64 =? 59) with false. change (64 =? 64) with true. cbv iota.
    cbn [port_part app]. rewrite req_host by assumption. now rewrite req_end.
  - exists (S (length u + S (length h + S (length (c :: p) + 1)))). rewrite req_scheme, req_user by assumption. cbn [req_loop]. change (64 =? 59) with false. change (64 =? 64) with true. cbv iota.
    unfold port_part. rewrite <- !app_assoc. change ([58] ++ (c :: p) ++ semicolon_string a) with (58 :: (c :: p) ++ semicolon_string a).
    rewrite req_host by assumption. cbn [req_loop]. change (58 =? 59) with false. change (58 =? 58) with true. cbv iota.
    rewrite req_port by assumption. now rewrite req_end.
Qed.
Lemma new_request_total s : exists x, req_loop (S (length s)) s FBase (str "sip") [] [] [] = Ok x.
Proof. apply req_total. lia. Qed.
Lemma req_det f f' rest st ty us ho po x y : req_loop f rest st ty us ho po = Ok x -> req_loop f' rest st ty us ho po = Ok y -> x = y.
Proof.
  intros H1 H2. apply (req_mono f (f + f')) in H1; [|lia]. apply (req_mono f' (f + f')) in H2; [|lia]. congruence.
Qed.
Lemma new_request_text t u h p a src : scheme t -> without [64; 59] u -> without [58; 59] h -> without [59] p -> plain_args a ->
  let r := mkReq t u h p a src in new_request (request_bytes r) = Ok (mkReq t u h p a (request_bytes r)).
Proof.
  intros Ht Hu Hh Hp Ha r. unfold new_request. destruct (new_request_total (request_bytes r)) as [x Hx]. rewrite Hx. cbn [bind].
  destruct (req_full t u h p a Ht Hu Hh Hp Ha) as [f Hf]. pose proof (req_det _ _ _ _ _ _ _ _ _ _ Hx Hf) as ->.
  rewrite args_tail by assumption. reflexivity.
Qed.

(** * Via *)
Lemma via_host f u rest tr ho po : Forall (fun c => c <> 59 /\ c <> 58 /\ c <> 32) u ->
  via_loop (length u + f) (u ++ rest) FHost tr ho po = via_loop f rest FHost tr (ho ++ u) po.
Proof.
  intros H. revert ho. induction H as [|c u Hc Hu IH]; intros ho; cbn [app length Nat.add]; [now rewrite app_nil_r|].
  cbn [via_loop]. replace (c =? 59) with false by lia. replace (c =? 32) with false by lia. replace (c =? 58) with false by lia. rewrite IH. now rewrite <- app_assoc.
Qed.
Lemma via_port f u rest tr ho po : Forall (fun c => c <> 59 /\ c <> 32) u ->
  via_loop (length u + f) (u ++ rest) FPort tr ho po = via_loop f rest FPort tr ho (po ++ u).
Proof.
  intros H. revert po. induction H as [|c u Hc Hu IH]; intros po; cbn [app length Nat.add]; [now rewrite app_nil_r|].
  cbn [via_loop]. replace (c =? 59) with false by lia. replace (c =? 32) with false by lia. rewrite IH. now rewrite <- app_assoc.
Qed.
Lemma via_end f a st tr ho po : via_loop (S f) (semicolon_string a) st tr ho po = Ok (semicolon_string a, tr, ho, po).
Proof. destruct (semicolon_head a) as [E|[t E]]; rewrite E; reflexivity. Qed.
Lemma via_start f t rest ho po : transport t ->
  via_loop (S (S f)) (str "SIP/2.0/" ++ t ++ 32 :: rest) FBase [] ho po = via_loop f rest FHost t ho po.
Proof. intros [-> | [-> | [-> | ->]]]; reflexivity. Qed.
Lemma via_det f f' rest st tr ho po x y : via_loop f rest st tr ho po = Ok x -> via_loop f' rest st tr ho po = Ok y -> x = y.
Proof.
  intros H1 H2. apply (via_mono f (f + f')) in H1; [|lia]. apply (via_mono f' (f + f')) in H2; [|lia]. congruence.
Qed.
Lemma via_full t h p a : transport t -> without [58; 59; 32] h -> without [59; 32] p -> plain_args a ->
  exists f, via_loop f (str "SIP/2.0/" ++ t ++ 32 :: h ++ port_part p ++ semicolon_string a) FBase [] [] [] = Ok (semicolon_string a, t, h, p).
Proof.
  intros Ht Hh Hp Ha.
  assert (Hh' : Forall (fun c => c <> 59 /\ c <> 58 /\ c <> 32) h) by (eapply Forall_impl; [|exact Hh]; cbn; intros; lia).
  assert (Hp' : Forall (fun c => c <> 59 /\ c <> 32) p) by (eapply Forall_impl; [|exact Hp]; cbn; intros; lia).
  destruct p as [|c p].
  - exists (S (S (length h + 1))). rewrite via_start by assumption. cbn [port_part app]. rewrite via_host by assumption. now rewrite via_end.
  - exists (S (S (length h + S (length (c :: p) + 1)))). rewrite via_start by assumption.
    unfold port_part. rewrite <- !app_assoc. change ([58] ++ (c :: p) ++ semicolon_string a) with (58 :: (c :: p) ++ semicolon_string a).
    rewrite via_host by assumption. cbn [via_loop]. change (58 =? 59) with false. change (58 =? 58) with true. change (58 =? 32) with false. cbv iota.
    rewrite via_port by assumption. now rewrite via_end.
Qed.
Lemma new_via_text t h p a src : transport t -> without [58; 59; 32] h -> without [59; 32] p -> plain_args a ->
  let v := mkVia t h p a src in new_via (via_bytes v) = Ok (mkVia t h p a (via_bytes v)).
Proof.
  intros Ht Hh Hp Ha v. unfold new_via. destruct (via_total (S (length (via_bytes v))) (via_bytes v) FBase [] [] []) as [x Hx]; [lia|].
  rewrite Hx. cbn [bind]. destruct (via_full t h p a Ht Hh Hp Ha) as [f Hf].
  assert (E : via_bytes v = str "SIP/2.0/" ++ t ++ 32 :: h ++ port_part p ++ semicolon_string a) by reflexivity.
  rewrite E in Hx at 2. pose proof (via_det _ _ _ _ _ _ _ _ _ Hx Hf) as ->. rewrite args_tail by assumption. reflexivity.
Qed.

(** * Address headers *)
Lemma user_user f u rest ty na us ho po : Forall (fun c => c <> 59 /\ c <> 62 /\ c <> 32 /\ c <> 64) u ->
  user_loop (length u + f) (u ++ rest) FUser ty na us ho po = user_loop f rest FUser ty na (us ++ u) ho po.
Proof.
  intros H. revert us. induction H as [|c u Hc Hu IH]; intros us; cbn [app length Nat.add]; [now rewrite app_nil_r|].
  cbn [user_loop]. replace (c =? 59) with false by lia. replace (c =? 62) with false by lia. replace (c =? 32) with false by lia. cbn [orb andb].
  replace (c =? 64) with false by lia. rewrite IH. now rewrite <- app_assoc.
Qed.
Lemma user_host f u rest ty na us ho po : Forall (fun c => c <> 59 /\ c <> 62 /\ c <> 32 /\ c <> 58) u ->
  user_loop (length u + f) (u ++ rest) FHost ty na us ho po = user_loop f rest FHost ty na us (ho ++ u) po.
Proof.
  intros H. revert ho. induction H as [|c u Hc Hu IH]; intros ho; cbn [app length Nat.add]; [now rewrite app_nil_r|].
  cbn [user_loop]. replace (c =? 59) with false by lia. replace (c =? 62) with false by lia. replace (c =? 32) with false by lia. cbn [orb andb].
  replace (c =? 58) with false by lia. rewrite IH. now rewrite <- app_assoc.
Qed.
Lemma user_port f u rest ty na us ho po : Forall (fun c => c <> 59 /\ c <> 62 /\ c <> 32) u ->
  user_loop (length u + f) (u ++ rest) FPort ty na us ho po = user_loop f rest FPort ty na us ho (po ++ u).
Proof.
  intros H. revert po. induction H as [|c u Hc Hu IH]; intros po; cbn [app length Nat.add]; [now rewrite app_nil_r|].
  cbn [user_loop]. replace (c =? 59) with false by lia. replace (c =? 62) with false by lia. replace (c =? 32) with false by lia. cbn [orb andb].
  rewrite IH. now rewrite <- app_assoc.
Qed.
Lemma user_end f a st ty na us ho po : user_loop (S f) (semicolon_string a) st ty na us ho po = Ok (semicolon_string a, ty, na, us, ho, po).
Proof. destruct (semicolon_head a) as [E|[t E]]; rewrite E; reflexivity. Qed.
Lemma user_scheme f t rest na us ho po : scheme t ->
  user_loop (S f) (t ++ 58 :: rest) FBase (str "sip") na us ho po = user_loop f rest FUser t na us ho po.
Proof. intros [-> | [-> | ->]]; reflexivity. Qed.
Lemma user_bracket f t rest na us ho po : scheme t ->
  user_loop (S (S f)) (60 :: t ++ 58 :: rest) FBase (str "sip") na us ho po = user_loop f rest FUser t na us ho po.
Proof. intros [-> | [-> | ->]]; reflexivity. Qed.
Lemma user_det f f' rest st ty na us ho po x y : user_loop f rest st ty na us ho po = Ok x -> user_loop f' rest st ty na us ho po = Ok y -> x = y.
Proof.
  intros H1 H2. apply (user_mono f (f + f')) in H1; [|lia]. apply (user_mono f' (f + f')) in H2; [|lia]. congruence.
Qed.
Lemma user_at f t ty na us ho po : user_loop (S f) (64 :: t) FUser ty na us ho po = user_loop f t FHost ty na us ho po.
Proof. reflexivity. Qed.
Lemma user_colon f t ty na us ho po : user_loop (S f) (58 :: t) FHost ty na us ho po = user_loop f t FPort ty na us ho po.
Proof. reflexivity. Qed.
Lemma user_gt f t st ty na us ho po : user_loop (S f) (62 :: t) st ty na us ho po = user_loop f t FBase ty na us ho po.
Proof. reflexivity. Qed.
Lemma user_address t u h p a : scheme t -> without [64; 59; 62; 32] u -> without [58; 59; 62; 32] h -> without [59; 62; 32] p ->
  exists f, user_loop f (60 :: t ++ 58 :: u ++ 64 :: h ++ port_part p ++ 62 :: semicolon_string a) FBase (str "sip") [] [] [] []
    = Ok (semicolon_string a, t, [], u, h, p).
Proof.
  intros Ht Hu Hh Hp.
  assert (Hu' : Forall (fun c => c <> 59 /\ c <> 62 /\ c <> 32 /\ c <> 64) u) by (eapply Forall_impl; [|exact Hu]; cbn; intros; lia).
  assert (Hh' : Forall (fun c => c <> 59 /\ c <> 62 /\ c <> 32 /\ c <> 58) h) by (eapply Forall_impl; [|exact Hh]; cbn; intros; lia).
  assert (Hp' : Forall (fun c => c <> 59 /\ c <> 62 /\ c <> 32) p) by (eapply Forall_impl; [|exact Hp]; cbn; intros; lia).
  destruct p as [|c p].
  - exists (S (S (length u + S (length h + S 1)))). rewrite user_bracket, user_user, user_at by assumption.
    cbn [port_part app]. rewrite user_host, user_gt by assumption. now rewrite user_end.
  - exists (S (S (length u + S (length h + S (length (c :: p) + S 1))))). rewrite user_bracket, user_user, user_at by assumption.
    unfold port_part. rewrite <- !app_assoc. change ([58] ++ (c :: p) ++ 62 :: semicolon_string a) with (58 :: (c :: p) ++ 62 :: semicolon_string a).
    rewrite user_host, user_colon, user_port, user_gt by assumption. now rewrite user_end.
Qed.
Lemma user_blanks k f rest st ty na us ho po : st <> FName -> exists st', st' <> FName /\ (k = O -> st' = st) /\
  user_loop (k + f) (repeat 32 k ++ rest) st ty na us ho po = user_loop f rest st' ty na us ho po.
Proof.
  revert st. induction k as [|k IH]; intros st Hst; [exists st; auto|]. destruct (IH FBase) as (st' & H1 & _ & E); [discriminate|].
  exists st'. split; [assumption|]. split; [discriminate|]. cbn [Nat.add repeat app user_loop]. change (32 =? 59) with false. change (32 =? 62) with false. change (32 =? 32) with true.
  destruct st; try (exact E). now elim Hst.
Qed.
(** Blanks before and after the closing bracket. *)
Lemma user_spaced t u h p a i j : scheme t -> without [64; 59; 62; 32] u -> without [58; 59; 62; 32] h -> without [59; 62; 32] p ->
  exists f, user_loop f (60 :: t ++ 58 :: u ++ 64 :: h ++ port_part p ++ repeat 32 i ++ 62 :: repeat 32 j ++ semicolon_string a) FBase (str "sip") [] [] [] []
    = Ok (semicolon_string a, t, [], u, h, p).
Proof.
  intros Ht Hu Hh Hp.
  assert (Hu' : Forall (fun c => c <> 59 /\ c <> 62 /\ c <> 32 /\ c <> 64) u) by (eapply Forall_impl; [|exact Hu]; cbn; intros; lia).
  assert (Hh' : Forall (fun c => c <> 59 /\ c <> 62 /\ c <> 32 /\ c <> 58) h) by (eapply Forall_impl; [|exact Hh]; cbn; intros; lia).
  assert (Hp' : Forall (fun c => c <> 59 /\ c <> 62 /\ c <> 32) p) by (eapply Forall_impl; [|exact Hp]; cbn; intros; lia).
  assert (T : forall st ty us ho po, st <> FName -> user_loop (i + S (j + 1)) (repeat 32 i ++ 62 :: repeat 32 j ++ semicolon_string a) st ty [] us ho po
    = Ok (semicolon_string a, ty, [], us, ho, po)).
  { intros st ty us ho po Hst. destruct (user_blanks i (S (j + 1)) (62 :: repeat 32 j ++ semicolon_string a) st ty [] us ho po Hst) as (st' & _ & _ & ->).
    rewrite user_gt. destruct (user_blanks j 1 (semicolon_string a) FBase ty [] us ho po) as (st2 & _ & _ & ->); [discriminate|]. apply user_end. }
  destruct p as [|c p].
  - exists (S (S (length u + S (length h + (i + S (j + 1)))))). rewrite user_bracket, user_user, user_at by assumption.
    cbn [port_part app]. rewrite user_host by assumption. cbn [app]. apply T. discriminate.
  - exists (S (S (length u + S (length h + S (length (c :: p) + (i + S (j + 1))))))). rewrite user_bracket, user_user, user_at by assumption.
    unfold port_part. rewrite <- !app_assoc. change ([58] ++ (c :: p) ++ ?x) with (58 :: (c :: p) ++ x).
    rewrite user_host, user_colon, user_port by assumption. cbn [app]. apply T. discriminate.
Qed.
(** A bare URI without brackets, as in "sip:+12125551212@phone2net.com;tag=887s". *)
Lemma user_bare t u h p a : scheme t -> without [64; 59; 62; 32] u -> without [58; 59; 62; 32] h -> without [59; 62; 32] p ->
  exists f, user_loop f (t ++ 58 :: u ++ 64 :: h ++ port_part p ++ semicolon_string a) FBase (str "sip") [] [] [] []
    = Ok (semicolon_string a, t, [], u, h, p).
Proof.
  intros Ht Hu Hh Hp.
  assert (Hu' : Forall (fun c => c <> 59 /\ c <> 62 /\ c <> 32 /\ c <> 64) u) by (eapply Forall_impl; [|exact Hu]; cbn; intros; lia).
  assert (Hh' : Forall (fun c => c <> 59 /\ c <> 62 /\ c <> 32 /\ c <> 58) h) by (eapply Forall_impl; [|exact Hh]; cbn; intros; lia).
  assert (Hp' : Forall (fun c => c <> 59 /\ c <> 62 /\ c <> 32) p) by (eapply Forall_impl; [|exact Hp]; cbn; intros; lia).
  destruct p as [|c p].
  - exists (S (length u + S (length h + 1))). rewrite user_scheme, user_user, user_at by assumption.
    cbn [port_part app]. rewrite user_host by assumption. now rewrite user_end.
  - exists (S (length u + S (length h + S (length (c :: p) + 1)))). rewrite user_scheme, user_user, user_at by assumption.
    unfold port_part. rewrite <- !app_assoc. change ([58] ++ (c :: p) ++ semicolon_string a) with (58 :: (c :: p) ++ semicolon_string a).
    rewrite user_host, user_colon, user_port by assumption. now rewrite user_end.
Qed.
Lemma user_loop_total s : exists x, user_loop (2 * length s + 2) s FBase (str "sip") [] [] [] [] = Ok x.
Proof. apply user_total. unfold user_measure. lia. Qed.
Lemma new_user_of_loop s f a t n u h p : user_loop f s FBase (str "sip") [] [] [] [] = Ok (semicolon_string a, t, n, u, h, p) ->
  plain_args a -> new_user s = Ok (mkUser t (trim_space n) u h p a s).
Proof.
  intros Hf Ha. unfold new_user. destruct (user_loop_total s) as [x Hx]. rewrite Hx. cbn [bind].
  pose proof (user_det _ _ _ _ _ _ _ _ _ _ _ Hx Hf) as ->. rewrite args_tail by assumption. reflexivity.
Qed.
Lemma new_user_text t u h p a src : scheme t -> without [64; 59; 62; 32] u -> without [58; 59; 62; 32] h -> without [59; 62; 32] p -> plain_args a ->
  let v := mkUser t [] u h p a src in new_user (user_bytes v) = Ok (mkUser t [] u h p a (user_bytes v)).
Proof.
  intros Ht Hu Hh Hp Ha v. destruct (user_address t u h p a Ht Hu Hh Hp) as [f Hf].
  assert (E : user_bytes v = 60 :: t ++ 58 :: u ++ 64 :: h ++ port_part p ++ 62 :: semicolon_string a) by reflexivity.
  rewrite <- E in Hf. rewrite (new_user_of_loop _ _ _ _ _ _ _ _ Hf Ha). reflexivity.
Qed.

(** No display name is ever read. *)
Lemma user_name_empty f : forall rest st ty na us ho po r ty' na' us' ho' po',
  na = [] -> ty <> [] -> (st = FName -> exists t, rest = 34 :: t) ->
  user_loop f rest st ty na us ho po = Ok (r, ty', na', us', ho', po') -> na' = [] /\ ty' <> [].
Proof.
  induction f as [|f IH]; intros rest st ty na us ho po r ty' na' us' ho' po' Hn Ht Hs E; cbn [user_loop] in E; [discriminate|].
  destruct rest as [|c t]; [injection E; intros; subst; auto|].
  destruct (c =? 59); [injection E; intros; subst; auto|].
  destruct ((c =? 62) || _) eqn:E1; [eapply IH; [..|exact E]; auto; discriminate|].
  destruct st.
  - destruct (bytes_eqb (sub (c :: t) 4) (str "sip:") || bytes_eqb (sub (c :: t) 4) (str "tel:")).
    { eapply IH; [..|exact E]; auto; discriminate. }
    destruct (bytes_eqb (sub (c :: t) 5) (str "sips:")). { eapply IH; [..|exact E]; auto; discriminate. }
    destruct (c =? 34) eqn:E2; cbn [orb] in E.
    + eapply IH; [..|exact E]; auto. intros _. apply Z.eqb_eq in E2. subst. eauto.
    + destruct ty; [congruence|]. cbn [bytes_eqb] in E. eapply IH; [..|exact E]; auto; discriminate.
  - destruct (Hs eq_refl) as [t' E3]. injection E3 as -> ->. change (34 =? 34) with true in E. cbn [orb] in E. eapply IH; [..|exact E]; auto; discriminate.
  - destruct (c =? 64); eapply IH; [..|exact E| | | |exact E]; auto; discriminate.
  - destruct (c =? 58); eapply IH; [..|exact E| | | |exact E]; auto; discriminate.
  - eapply IH; [..|exact E]; auto; discriminate.
  - eapply IH; [..|exact E]; auto; discriminate.
  - eapply IH; [..|exact E]; auto; discriminate.
Qed.
Lemma new_user_no_name s u : new_user s = Ok u -> u_name u = [].
Proof.
  unfold new_user. destruct (user_loop_total s) as [x Hx]. rewrite Hx. cbn [bind]. destruct x as [[[[[r ty] na] us] ho] po].
  apply user_name_empty in Hx; [|reflexivity|discriminate|discriminate]. destruct Hx as [-> _].
  destruct (match r with [] => _ | _ => _ end) as [a| | |]; cbn [bind]; try discriminate. intros E. injection E as <-. reflexivity.
Qed.

(** * When parameter parsing panics *)
(** A parameter "k=" without value, or one whose value is a single quote. *)
Lemma go_at_head c v : go_at (c :: v) 0 = Ok c.
Proof. unfold go_at. rewrite len_cons. pose proof (len_nonneg v). replace (_ && _) with true by lia. reflexivity. Qed.
Lemma go_at_last c v : go_at (c :: v) (len (c :: v) - 1) = Ok (at_ (c :: v) (len v)).
Proof. unfold go_at. rewrite len_cons. pose proof (len_nonneg v). replace (_ && _) with true by lia. do 2 f_equal. lia. Qed.
Lemma go_slice_inner c d v : go_slice (c :: d :: v) 1 (len (c :: d :: v) - 1) = Ok (slice (c :: d :: v) 1 (len (c :: d :: v) - 1)).
Proof. unfold go_slice. rewrite !len_cons. pose proof (len_nonneg v). replace (_ && _) with true by lia. reflexivity. Qed.
Lemma parse_pair_cases m e : parse_pair m e = Panic /\ broken e \/ (exists m', parse_pair m e = Ok m') /\ ~ broken e.
Proof.
  unfold parse_pair. destruct (cut 61 e) as [[k v]|] eqn:E.
  - apply cut_some in E. destruct E as [-> Hk].
    assert (U : forall k' v', without [61] k' -> k ++ 61 :: v = k' ++ 61 :: v' -> k = k' /\ v = v').
    { intros k' v' H' E. assert (C1 : cut 61 (k ++ 61 :: v) = Some (k, v)) by now apply cut_app.
      assert (C2 : cut 61 (k' ++ 61 :: v') = Some (k', v')). { apply cut_app. eapply Forall_impl; [|exact H']. cbn. intros; lia. }
      rewrite E in C1. rewrite C1 in C2. now injection C2 as -> ->. }
    assert (Hw : without [61] k) by (eapply Forall_impl; [|exact Hk]; cbn; intros; lia).
    destruct v as [|c v].
    + left. split; [reflexivity|]. exists k. auto.
    + rewrite go_at_head. cbn [bind]. destruct (c =? 34) eqn:E34.
      * rewrite go_at_last. cbn [bind]. destruct (at_ (c :: v) (len v) =? 34) eqn:EL.
        -- destruct v as [|d v].
           ++ left. split; [reflexivity|]. exists k. apply Z.eqb_eq in E34. subst. auto.
           ++ rewrite go_slice_inner. cbn [bind]. right. split; [eauto|].
              intros [k' [H' [C|C]]]; apply U in C; try assumption; destruct C; discriminate.
        -- cbn [bind]. right. split; [eauto|]. intros [k' [H' [C|C]]]; apply U in C; try assumption; destruct C as [_ C]; [discriminate|].
           injection C as -> ->. discriminate.
      * cbn [bind]. right. split; [eauto|]. intros [k' [H' [C|C]]]; apply U in C; try assumption; destruct C as [_ C]; [discriminate|].
        injection C as -> ->. discriminate.
  - apply cut_none_inv in E. right. split; [eauto|]. rewrite Forall_forall in E. intros [k [_ [-> | ->]]]; apply (E 61); auto; apply in_or_app; right; now left.
Qed.
Lemma parse_pairs_cases l : forall m, parse_pairs m l = Panic /\ Exists broken l \/ (exists m', parse_pairs m l = Ok m') /\ ~ Exists broken l.
Proof.
  induction l as [|e l IH]; intros m; cbn [parse_pairs]; [right; split; [eauto|]; intros C; inversion C|].
  destruct (parse_pair_cases m e) as [[E B]|[[m' E] B]]; rewrite E; cbn [bind].
  - left. split; [reflexivity|]. now left.
  - destruct (IH m') as [[E' B']|[E' B']].
    + left. split; [assumption|]. now right.
    + right. split; [assumption|]. intros C. inversion C; subst; contradiction.
Qed.
