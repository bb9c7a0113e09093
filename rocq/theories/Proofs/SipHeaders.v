(** Proofs about header lines, header maps and parameter lists. *)
From Coq Require Import String Permutation.
From Verif Require Import Base.Go Base.GoFacts Base.IO Base.Text Model.Sip Spec.Sip Proofs.Text Proofs.Sip Proofs.SipMsg Proofs.SipRead Proofs.SipText.
Import ListNotations. Local Open Scope list_scope. Local Open Scope Z_scope.
Local Ltac Zify.zify_post_hook ::= Z.div_mod_to_equations.

(** * Histories of ParseHeader *)
Lemma append_last_some x l : l <> [] -> exists l', append_last x l = Some l' /\ l' <> [].
Proof.
  induction l as [|v l IH]; [congruence|]. intros _. cbn [append_last]. destruct l as [|w l]; [exists [v ++ x]; split; [reflexivity|discriminate]|].
  destruct IH as [l' [-> _]]; [discriminate|]. exists (v :: l'). split; [reflexivity|discriminate].
Qed.
Lemma continuation_dec c t : continuation (c :: t) <-> (c =? 9) || (c =? 32) = true.
Proof.
  split.
  - intros [u [E|E]]; injection E as -> _; reflexivity.
  - intros H. assert (c = 9 \/ c = 32) as [-> | ->] by lia; exists t; auto.
Qed.
Lemma cut_in c s : (exists p, cut c s = Some p) <-> In c s.
Proof.
  split.
  - intros [[a b] E]. apply cut_some in E. destruct E as [-> _]. apply in_or_app. right. now left.
  - intros H. destruct (cut c s) as [p|] eqn:E; [eauto|]. apply cut_none_inv in E. rewrite Forall_forall in E. exfalso. now apply (E _ H).
Qed.
(** [named]: whether a header line has been parsed. *)
Definition hist (s : sip) (named : Prop) : Prop :=
  exists m, s_headers s = Some m /\ (named /\ hvals (Some m) (s_last s) <> [] \/ ~ named /\ m = []).
Lemma hist_step l s named : hist s named ->
  match parse_header l s with
  | (s', Ok _) => hist s' (named \/ header_line l) /\ ~ (continuation l /\ ~ named)
  | (s', Panic) => continuation l /\ ~ named /\ s' = s
  | _ => False
  end.
Proof.
  intros [m [Em H]]. unfold parse_header. destruct l as [|c l].
  - split.
    + exists m. split; [assumption|]. destruct H as [[H1 H2]|[H1 H2]]; [left; auto|right; split; [|assumption]]. intros [C|[_ []]]. contradiction.
    + intros [[t [C|C]] _]; discriminate.
  - destruct ((c =? 9) || (c =? 32)) eqn:E.
    + assert (Hc : continuation (c :: l)) by now apply continuation_dec. rewrite Em. destruct H as [[H1 H2]|[H1 H2]].
      * destruct (append_last_some (32 :: trim_space (c :: l)) (hvals (Some m) (s_last s)) H2) as [l' [-> Hl']]. split; [|tauto].
        exists (mset (s_last s) l' m). split; [reflexivity|]. left. split; [auto|]. cbn [with_headers s_last]. unfold hvals, hlook. rewrite mget_mset_same. assumption.
      * subst m. cbn. auto.
    + assert (Hc : ~ continuation (c :: l)) by (intros C; apply continuation_dec in C; congruence).
      destruct (cut 58 (c :: l)) as [[a b]|] eqn:Ec.
      * rewrite Em. split; [|tauto]. eexists. split; [reflexivity|]. left. split.
        -- right. split; [assumption|]. apply cut_in. eauto.
        -- cbn [with_last with_headers s_last]. unfold hvals at 1, hlook. rewrite mget_mset_same. intros C. apply app_eq_nil in C. destruct C; discriminate.
      * split; [|tauto]. exists m. split; [assumption|]. destruct H as [[H1 H2]|[H1 H2]]; [left; auto|right; split; [|assumption]].
        intros [C|[_ C]]; [contradiction|]. apply cut_in in C. destruct C as [p C]. congruence.
Qed.
Lemma feed_hist ls : forall s named, hist s named ->
  match feed ls s with
  | (s', Ok _) => hist s' (named \/ Exists header_line ls)
  | (s', Panic) => exists a l b, ls = a ++ l :: b /\ continuation l /\ ~ named /\ ~ Exists header_line a
  | _ => False
  end.
Proof.
  induction ls as [|l ls IH]; intros s named H; cbn [feed].
  - destruct H as [m [Em H]]. exists m. split; [assumption|]. destruct H as [[H1 H2]|[H1 H2]]; [left; auto|right; split; [|assumption]]. intros [C|C]; [contradiction|inversion C].
  - pose proof (hist_step l s named H) as S. destruct (parse_header l s) as [s1 [u|e| |]]; try contradiction.
    + destruct S as [S _]. specialize (IH s1 _ S). destruct (feed ls s1) as [s2 [u2|e| |]]; try contradiction.
      * destruct IH as [m [Em H']]. exists m. split; [assumption|]. rewrite Exists_cons. tauto.
      * destruct IH as [a [l' [b [-> [H1 [H2 H3]]]]]]. exists (l :: a), l', b. rewrite Exists_cons. split; [reflexivity|]. tauto.
    + destruct S as [S1 [S2 _]]. exists [], l, ls. split; [reflexivity|]. split; [assumption|]. split; [assumption|]. intros C. inversion C.
Qed.
Lemma hist_new : hist new_sip False.
Proof. exists []. split; [reflexivity|]. right. auto. Qed.
Lemma feed_app a b s : feed (a ++ b) s = match feed a s with (s', Ok _) => feed b s' | r => r end.
Proof. revert s. induction a as [|l a IH]; intros s; cbn [feed app]; [reflexivity|]. destruct (parse_header l s) as [s1 [u|e| |]]; auto. Qed.
Lemma feed_panic_iff ls : snd (feed ls new_sip) = Panic <-> exists a l b, ls = a ++ l :: b /\ continuation l /\ ~ Exists header_line a.
Proof.
  split.
  - intros H. pose proof (feed_hist ls new_sip False hist_new) as F. destruct (feed ls new_sip) as [s [u|e| |]]; try discriminate; try contradiction.
    destruct F as [a [l [b [E1 [E2 [_ E3]]]]]]. eauto 6.
  - intros [a [l [b [-> [H1 H2]]]]]. rewrite feed_app. pose proof (feed_hist a new_sip False hist_new) as F. destruct (feed a new_sip) as [s [u|e| |]]; try contradiction; [|reflexivity].
    cbn [feed]. pose proof (hist_step l s _ F) as S. destruct (parse_header l s) as [s1 [u1|e| |]]; try contradiction; [|reflexivity]. destruct S as [_ S]. elim S. split; [assumption|]. tauto.
Qed.

(** * Names and case *)
Lemma lower_rune_inj a b : ascii a -> ascii b -> lower_rune a = lower_rune b -> same_letter a b.
Proof.
  unfold ascii, lower_rune. intros Ha Hb H. replace (a =? 304) with false in H by lia. replace (a =? 8490) with false in H by lia.
  replace (b =? 304) with false in H by lia. replace (b =? 8490) with false in H by lia.
  destruct (btw 65 a 90) eqn:E1, (btw 65 b 90) eqn:E2; rewrite ?btw_spec, ?btw_false in *.
  - replace b with a by lia. constructor.
  - subst b. now constructor.
  - subst a. now constructor.
  - subst b. constructor.
Qed.
Lemma to_lower_inj a b : Forall ascii a -> Forall ascii b -> to_lower a = to_lower b -> same_ignoring_case a b.
Proof.
  intros Ha Hb. rewrite !to_lower_ascii by assumption. revert b Hb. induction Ha as [|x a Hx Ha IH]; intros [|y b] Hb E; try discriminate; [constructor|].
  cbn [map] in E. injection E as E1 E2. inversion Hb; subst. constructor; [now apply lower_rune_inj|]. now apply IH.
Qed.

(** * Parameter lists without quotes *)
Lemma equals_app a b : equals_followed (a ++ b) -> (b = [] \/ (forall d u, b = d :: u -> ~ (graphic d /\ d <> 44 /\ d <> 59)) -> equals_followed a) .
Proof.
  induction a as [|c a IH]; intros H Hb; cbn [equals_followed app] in *; [exact I|]. destruct H as [H1 H2]. split; [|now apply IH].
  intros ->. destruct (H1 eq_refl) as [d [u [E Hd]]]. destruct a as [|x a].
  - cbn [app] in E. exfalso. destruct Hb as [-> |Hb]; [discriminate|]. now apply (Hb d u).
  - cbn [app] in E. injection E as -> E. eauto.
Qed.
Lemma equals_drop a b : equals_followed (a ++ b) -> equals_followed b.
Proof. induction a as [|c a IH]; cbn [app equals_followed]; [auto|]. intros [_ H]. auto. Qed.
Lemma equals_not_end k t : equals_followed (k ++ 61 :: t) -> exists d u, t = d :: u /\ graphic d /\ d <> 44 /\ d <> 59.
Proof. intros H. apply equals_drop in H. cbn [equals_followed] in H. now apply H. Qed.
Lemma drop_while_suffix {A} (p : A -> bool) l : exists a, l = a ++ drop_while p l /\ Forall (fun x => p x = true) a.
Proof.
  induction l as [|x l [a [E H]]]; cbn [drop_while]; [exists []; auto|]. destruct (p x) eqn:Ep; [|exists []; auto].
  exists (x :: a). cbn [app]. split; [congruence|]. constructor; assumption.
Qed.
Lemma trim_by_parts {A} (p : A -> bool) l : exists a b, l = a ++ trim_by p l ++ b /\ Forall (fun x => p x = true) b.
Proof.
  unfold trim_by. destruct (drop_while_suffix p l) as [a [E1 _]]. destruct (drop_while_suffix p (rev (drop_while p l))) as [b [E2 Hb]].
  exists a, (rev b). split.
  - rewrite E1 at 1. f_equal. rewrite <- rev_app_distr, <- E2, rev_involutive. reflexivity.
  - apply Forall_rev. assumption.
Qed.
Lemma trimmed_not_broken e : Forall ascii e -> without [34] e -> equals_followed e -> ~ broken (trim_space e).
Proof.
  intros Ha Hq He [k [Hk Hb]]. rewrite trim_space_ascii in Hb by assumption. destruct (trim_by_parts is_space e) as [a [b [E Hs]]].
  destruct Hb as [Hb|Hb]; rewrite Hb in E.
  - rewrite <- app_assoc in E. cbn [app] in E. rewrite E, app_assoc in He. destruct (equals_not_end _ _ He) as [d [u [-> [Hg _]]]]. apply Forall_inv in Hs.
    rewrite space_ascii in Hs by (unfold graphic, ascii in *; lia). unfold graphic in Hg. apply Bool.orb_prop in Hs. rewrite btw_spec in Hs. lia.
  - rewrite E in Hq. unfold without in Hq. rewrite !Forall_app in Hq. destruct Hq as [_ [[_ Hq] _]]. apply Forall_inv_tail, Forall_inv in Hq. apply Hq. now left.
Qed.
Lemma parse_list_safe l : forall b out, Forall ascii l -> Forall ascii b -> without [34] l -> without [34] b -> equals_followed (rev b ++ l) ->
  Forall (fun e => ~ broken e) out -> Forall (fun e => ~ broken e) (parse_list_loop l false false b out).
Proof.
  assert (Hemit : forall b out, Forall ascii b -> without [34] b -> equals_followed (rev b) -> Forall (fun e => ~ broken e) out ->
            Forall (fun e => ~ broken e) (out ++ [trim_space (encode_runes (rev b))])).
  { intros b out Hb Hq He Ho. apply Forall_app. split; [assumption|]. constructor; [|constructor]. apply Forall_rev in Hb. rewrite encode_ascii by assumption.
    apply trimmed_not_broken; [assumption|now apply Forall_rev|assumption]. }
  induction l as [|r l IH]; intros b out Hl Hb Hql Hqb He Ho; cbn [parse_list_loop].
  - rewrite app_nil_r in He. destruct b as [|x b]; [assumption|]. now apply Hemit.
  - inversion Hl; subst. inversion Hql; subst. destruct ((r =? 44) || (r =? 59) || (r =? 10)) eqn:E.
    + apply IH; [assumption|constructor|assumption|constructor| |].
      * apply equals_drop in He. cbn [equals_followed] in He. apply He.
      * apply Hemit; auto. apply (equals_app _ (r :: l)); [assumption|]. right. intros d u Eq. injection Eq as <- _. unfold graphic. lia.
    + replace (r =? 34) with false by (symmetry; apply Z.eqb_neq; intros ->; match goal with H : ~ In 34 [34] |- _ => apply H; now left end).
      apply IH; [assumption|constructor; assumption|assumption|constructor; assumption| |assumption]. cbn [rev]. rewrite <- app_assoc. exact He.
Qed.
Lemma equals_skip a b : Forall (fun c => c <> 61) a -> equals_followed (a ++ b) <-> equals_followed b.
Proof. induction 1 as [|c a Hc Ha IH]; cbn [app equals_followed]; [tauto|]. rewrite IH. tauto. Qed.

(** * Addresses with a display name *)
Lemma user_skip f c t ty na us ho po : c <> 59 -> c <> 34 -> ty <> [] ->
  bytes_eqb (sub (c :: t) 4) (str "sip:") = false -> bytes_eqb (sub (c :: t) 4) (str "tel:") = false -> bytes_eqb (sub (c :: t) 5) (str "sips:") = false ->
  user_loop (S f) (c :: t) FBase ty na us ho po = user_loop f t FBase ty na us ho po.
Proof.
  intros H1 H2 H3 E1 E2 E3. cbn [user_loop]. replace (c =? 59) with false by lia. cbv iota. match goal with |- (if ?b then _ else _) = _ => destruct b end; [reflexivity|].
  rewrite E1, E2, E3. cbn [orb]. replace (c =? 34) with false by lia. destruct ty; [congruence|]. reflexivity.
Qed.
Lemma user_quote f t ty na us ho po : user_loop (S (S f)) (34 :: t) FBase ty na us ho po = user_loop f t FBase ty na us ho po.
Proof. reflexivity. Qed.
Lemma no_scheme c n t : c <> 58 -> without [58] n -> forall x, In x [str "sip:"; str "tel:"] -> bytes_eqb (sub (c :: n ++ 34 :: t) 4) x = false.
Proof.
  intros Hc Hn x Hx. destruct (bytes_eqb (sub (c :: n ++ 34 :: t) 4) x) eqn:E; [|reflexivity]. apply bytes_eqb_eq in E. exfalso.
  assert (H : exists a b d, x = [a; b; d; 58] /\ a <> 34 /\ b <> 34 /\ d <> 34) by (destruct Hx as [<-|[<-|[]]]; [exists 115, 105, 112|exists 116, 101, 108]; (split; [reflexivity|lia])).
  destruct H as [a [b [d [-> [Ha [Hb Hd]]]]]]. unfold sub in E. destruct n as [|n1 [|n2 [|n3 n]]]; cbn [app firstn] in E; injection E; intros; subst; try congruence.
  inversion Hn as [|? ? _ Hn2]; inversion Hn2 as [|? ? _ Hn3]; inversion Hn3 as [|? ? H4 _]. apply H4. now left.
Qed.
Lemma no_sips c n t : c <> 58 -> without [58] n -> bytes_eqb (sub (c :: n ++ 34 :: t) 5) (str "sips:") = false.
Proof.
  intros Hc Hn. destruct (bytes_eqb (sub (c :: n ++ 34 :: t) 5) (str "sips:")) eqn:E; [|reflexivity]. apply bytes_eqb_eq in E. exfalso.
  unfold sub in E. change (str "sips:") with [115; 105; 112; 115; 58] in E. destruct n as [|n1 [|n2 [|n3 [|n4 n]]]]; cbn [app firstn] in E; injection E; intros; subst; try congruence.
  inversion Hn as [|? ? _ Hn2]; inversion Hn2 as [|? ? _ Hn3]; inversion Hn3 as [|? ? _ Hn4]; inversion Hn4 as [|? ? H5 _]. apply H5. now left.
Qed.
Lemma user_skip_name n : forall f t ty na us ho po, ty <> [] -> without [34; 58; 59] n ->
  user_loop (length n + f) (n ++ 34 :: t) FBase ty na us ho po = user_loop f (34 :: t) FBase ty na us ho po.
Proof.
  induction n as [|c n IH]; intros f t ty na us ho po Ht Hn; [reflexivity|]. inversion Hn as [|x y Hc Hn']; subst. cbn [In] in Hc. cbn [length app Nat.add].
  assert (Hn58 : without [58] n) by (eapply without_sub; [|exact Hn']; cbn; tauto).
  rewrite user_skip; [now apply IH|lia|lia|assumption|apply no_scheme; [lia|assumption|cbn; auto]|apply no_scheme; [lia|assumption|cbn; auto]|apply no_sips; [lia|assumption]].
Qed.
Lemma user_named n t u h p a : scheme t -> without [64; 59; 62; 32] u -> without [58; 59; 62; 32] h -> without [59; 62; 32] p -> without [34; 58; 59] n ->
  exists f, user_loop f (34 :: n ++ 34 :: 32 :: 60 :: t ++ 58 :: u ++ 64 :: h ++ port_part p ++ 62 :: semicolon_string a) FBase (str "sip") [] [] [] []
    = Ok (semicolon_string a, t, [], u, h, p).
Proof.
  intros Ht Hu Hh Hp Hn. destruct (user_address t u h p a Ht Hu Hh Hp) as [f Hf].
  exists (S (S (length n + S (S (S f))))). rewrite user_quote, user_skip_name by (discriminate || assumption). rewrite user_quote.
  change (user_loop (S f) (32 :: 60 :: t ++ 58 :: u ++ 64 :: h ++ port_part p ++ 62 :: semicolon_string a) FBase (str "sip") [] [] [] [])
    with (user_loop f (60 :: t ++ 58 :: u ++ 64 :: h ++ port_part p ++ 62 :: semicolon_string a) FBase (str "sip") [] [] [] []). exact Hf.
Qed.
Lemma quote_plain n : Forall (fun c => 32 <= c <= 126) n -> without [34; 92] n -> quote n = 34 :: n ++ [34].
Proof.
  intros Ha Hn. unfold quote. cbn [app]. f_equal. f_equal. rewrite decode_ascii by (eapply Forall_impl; [|exact Ha]; unfold ascii; cbn; intros; lia).
  induction Ha as [|c n Hc Ha IH]; [reflexivity|]. inversion Hn; subst. cbn [map flat_map]. rewrite IH by assumption. unfold quote_rune. cbn [In] in *.
  replace ((c =? 34) || (c =? 92)) with false by lia. replace (c <? 128) with true by lia. replace (btw 32 c 126) with true by (symmetry; apply btw_spec; lia). reflexivity.
Qed.

(** * Digest parameters *)
Definition esc (v : bytes) : bytes := flat_map (fun c => if (c =? 34) || (c =? 92) then [92; c] else [c]) v.
Lemma quote_esc v : Forall (fun c => 32 <= c <= 126) v -> quote v = 34 :: esc v ++ [34].
Proof.
  intros Ha. unfold quote. cbn [app]. f_equal. f_equal. rewrite decode_ascii by (eapply Forall_impl; [|exact Ha]; unfold ascii; cbn; intros; lia).
  induction Ha as [|c n Hc Ha IH]; [reflexivity|]. unfold esc in *. cbn [map flat_map]. rewrite IH. f_equal. unfold quote_rune.
  destruct ((c =? 34) || (c =? 92)); [reflexivity|]. replace (c <? 128) with true by lia. replace (btw 32 c 126) with true by (symmetry; apply btw_spec; lia). reflexivity.
Qed.
Lemma parse_list_esc v : forall rest b out, parse_list_loop (esc v ++ rest) false true b out = parse_list_loop rest false true (rev v ++ b) out.
Proof.
  induction v as [|c v IH]; intros rest b out; [reflexivity|]. unfold esc in *. cbn [flat_map]. rewrite <- app_assoc. cbn [rev]. rewrite <- app_assoc. cbn [app].
  destruct ((c =? 34) || (c =? 92)) eqn:E.
  - cbn [app]. cbn [parse_list_loop]. change (92 =? 92) with true. cbv iota. apply IH.
  - cbn [app]. cbn [parse_list_loop]. replace (c =? 92) with false by lia. replace (c =? 34) with false by lia. apply IH.
Qed.
(** An element as CommaString writes it, and as ParseList returns it. *)
Definition dtext (p : bytes * bytes) : bytes := fst p ++ 61 :: 34 :: esc (snd p) ++ [34].
Definition delem (p : bytes * bytes) : bytes := fst p ++ 61 :: 34 :: snd p ++ [34].
Lemma dkey_quiet p : digest_param p -> quiet (fst p ++ [61]).
Proof.
  intros [_ [Hg [Hw _]]]. apply Forall_app. split; [|repeat constructor; lia]. rewrite Forall_forall in *. intros c Hc. pose proof (Hg c Hc) as G. unfold graphic in G.
  pose proof (without_in _ _ _ Hw Hc) as W. cbn in W. lia.
Qed.
Lemma parse_list_delem p rest b out : digest_param p -> parse_list_loop (dtext p ++ rest) false false b out = parse_list_loop rest false false (rev (delem p) ++ b) out.
Proof.
  intros Hp. unfold dtext, delem. rewrite <- app_assoc. cbn [app]. rewrite <- app_assoc. cbn [app].
  replace (fst p ++ 61 :: 34 :: esc (snd p) ++ 34 :: rest) with ((fst p ++ [61]) ++ 34 :: esc (snd p) ++ 34 :: rest) by (rewrite <- app_assoc; reflexivity).
  rewrite parse_list_quiet by now apply dkey_quiet. cbn [parse_list_loop]. change ((34 =? 44) || (34 =? 59) || (34 =? 10)) with false. change (34 =? 34) with true. cbv iota.
  rewrite parse_list_esc. cbn [parse_list_loop]. change (34 =? 92) with false. change (34 =? 34) with true. cbv iota. f_equal.
  replace (fst p ++ 61 :: 34 :: snd p ++ [34]) with ((fst p ++ [61]) ++ [34] ++ snd p ++ [34]) by (rewrite <- app_assoc; reflexivity).
  rewrite (rev_app_distr (fst p ++ [61])). rewrite (rev_app_distr [34]). rewrite (rev_app_distr (snd p)). cbn [rev app]. rewrite <- !app_assoc. reflexivity.
Qed.
Lemma comma_entries p a : Forall digest_param (p :: a) -> comma_string (p :: a) = dtext p ++ flat_map (fun q => 44 :: 32 :: dtext q) a.
Proof.
  intros H. unfold comma_string. cbv zeta.
  assert (E : forall l, Forall digest_param l -> flat_map (fun p => fst p ++ [61] ++ quote (snd p) ++ str ", ") l = flat_map (fun q => dtext q ++ [44; 32]) l).
  { induction 1 as [|q l Hq Hl IH]; [reflexivity|]. cbn [flat_map]. rewrite IH. f_equal. destruct Hq as [_ [_ [_ Hv]]]. rewrite quote_esc by assumption. unfold dtext. cbn [app]. rewrite <- !app_assoc. cbn [app]. rewrite <- !app_assoc. reflexivity. }
  rewrite E by assumption.
  assert (S : forall l p, flat_map (fun q => dtext q ++ [44; 32]) (p :: l) = (dtext p ++ flat_map (fun q => 44 :: 32 :: dtext q) l) ++ [44; 32]).
  { induction l as [|q l IH]; intros p0; [cbn [flat_map]; rewrite !app_nil_r; reflexivity|]. cbn [flat_map] in *. rewrite (IH q). repeat (rewrite <- ?app_assoc; cbn [app]); reflexivity. }
  rewrite S. rewrite app_length. cbn [length]. replace (_ + 2 - 2)%nat with (length (dtext p ++ flat_map (fun q => 44 :: 32 :: dtext q) a)) by lia.
  rewrite firstn_app, firstn_all, Nat.sub_diag. cbn [firstn]. apply app_nil_r.
Qed.
Lemma esc_printable v : Forall (fun c => 32 <= c <= 126) v -> Forall (fun c => 32 <= c <= 126) (esc v).
Proof. induction 1 as [|c v Hc Hv IH]; [constructor|]. unfold esc in *. cbn [flat_map]. apply Forall_app. split; [|assumption]. destruct ((c =? 34) || (c =? 92)); repeat constructor; lia. Qed.
Lemma dtext_ascii p : digest_param p -> Forall ascii (dtext p).
Proof.
  intros [_ [Hg [_ Hv]]]. unfold dtext. apply Forall_app. split; [now apply graphic_ascii|]. constructor; [unfold ascii; lia|]. constructor; [unfold ascii; lia|].
  apply Forall_app. split; [|repeat constructor; unfold ascii; lia]. eapply Forall_impl; [|apply esc_printable; exact Hv]. unfold ascii. cbn. intros; lia.
Qed.
Lemma delem_ascii p : digest_param p -> Forall ascii (delem p).
Proof.
  intros [_ [Hg [_ Hv]]]. unfold delem. apply Forall_app. split; [now apply graphic_ascii|]. constructor; [unfold ascii; lia|]. constructor; [unfold ascii; lia|].
  apply Forall_app. split; [|repeat constructor; unfold ascii; lia]. eapply Forall_impl; [|exact Hv]. unfold ascii. cbn. intros; lia.
Qed.
Lemma solid_ends x s y : Forall graphic [x; y] -> solid is_space (x :: s ++ [y]).
Proof.
  intros H. inversion H as [|? ? H1 H2]; subst. apply Forall_inv in H2. unfold graphic in *. split.
  - rewrite space_ascii by (unfold ascii; lia). unfold btw. lia.
  - change (x :: s ++ [y]) with ((x :: s) ++ [y]). rewrite last_last. rewrite space_ascii by (unfold ascii; lia). unfold btw. lia.
Qed.
Lemma delem_solid p : digest_param p -> solid is_space (delem p) /\ solid is_space (dtext p).
Proof.
  destruct p as [[|c k] v]; intros [Hne [Hg _]]; [now elim Hne|]. cbn [fst] in Hg. apply Forall_inv in Hg. unfold delem, dtext. cbn [fst snd app]. split.
  - replace (k ++ 61 :: 34 :: v ++ [34]) with ((k ++ 61 :: 34 :: v) ++ [34]) by (rewrite <- app_assoc; reflexivity). apply solid_ends. repeat constructor; try assumption; unfold graphic in *; lia.
  - replace (k ++ 61 :: 34 :: esc v ++ [34]) with ((k ++ 61 :: 34 :: esc v) ++ [34]) by (rewrite <- app_assoc; reflexivity). apply solid_ends. repeat constructor; try assumption; unfold graphic in *; lia.
Qed.
Lemma trim_lead p : digest_param p -> trim_space (32 :: delem p) = delem p.
Proof.
  intros Hp. rewrite trim_space_ascii by (constructor; [unfold ascii; lia|now apply delem_ascii]).
  replace (32 :: delem p) with ([32] ++ delem p ++ []) by (rewrite app_nil_r; reflexivity). apply trim_by_wrap; [repeat constructor|constructor|now apply delem_solid].
Qed.
Lemma parse_list_digest a : forall p b out, Forall digest_param (p :: a) -> b = [] \/ b = [32] ->
  parse_list_loop (dtext p ++ flat_map (fun q => 44 :: 32 :: dtext q) a) false false b out = out ++ map delem (p :: a).
Proof.
  assert (T : forall p b, digest_param p -> b = [] \/ b = [32] -> trim_space (encode_runes (rev (rev (delem p) ++ b))) = delem p).
  { intros p b Hp Hb. rewrite rev_app_distr, rev_involutive. pose proof (delem_ascii p Hp) as Ha. destruct Hb as [-> | ->]; cbn [rev app].
    - rewrite encode_ascii by assumption. rewrite trim_space_ascii by assumption. apply trim_by_solid. now apply delem_solid.
    - rewrite encode_ascii by (constructor; [unfold ascii; lia|assumption]). now apply trim_lead. }
  induction a as [|q a IH]; intros p b out H Hb; pose proof (Forall_inv H) as Hp.
  - cbn [flat_map map]. rewrite parse_list_delem by assumption. cbn [parse_list_loop]. pose proof (T p b Hp Hb) as Tp.
    destruct (rev (delem p) ++ b) as [|x l] eqn:E; [|rewrite Tp; reflexivity].
    apply app_eq_nil in E. destruct E as [E _]. apply (f_equal (@rev Z)) in E. rewrite rev_involutive in E. unfold delem in E. destruct (fst p); discriminate.
  - cbn [flat_map app]. rewrite parse_list_delem by assumption. cbn [parse_list_loop]. change ((44 =? 44) || (44 =? 59) || (44 =? 10)) with true. cbv iota. rewrite T by assumption.
    change ((32 =? 44) || (32 =? 59) || (32 =? 10)) with false. change (32 =? 34) with false. cbv iota. rewrite IH by ((now inversion H) || (now right)). rewrite <- app_assoc. reflexivity.
Qed.
Lemma parse_pair_delem m p : digest_param p -> parse_pair m (delem p) = Ok (mset (fst p) (snd p) m).
Proof.
  destruct p as [k v]. intros [Hk [Hg [Hw _]]]. unfold parse_pair, delem. cbn [fst snd] in *.
  assert (Ke : Forall (fun x => x <> 61) k). { rewrite Forall_forall in *. intros c Hc. pose proof (without_in _ _ _ Hw Hc) as N. cbn in N. lia. }
  rewrite cut_app by assumption. rewrite go_at_head. cbn [bind]. change (34 =? 34) with true. cbv iota.
  assert (L : len (34 :: v ++ [34]) - 1 = len v + 1) by (rewrite len_cons, len_app; change (len [34]) with 1; lia). rewrite L. pose proof (len_nonneg v).
  unfold go_at. rewrite len_cons, len_app. change (len [34]) with 1. replace ((0 <=? len v + 1) && (len v + 1 <? 1 + (len v + 1))) with true by lia. cbn [bind].
  assert (A : at_ (34 :: v ++ [34]) (len v + 1) = 34). { unfold at_. replace (Z.to_nat (len v + 1)) with (S (length v)) by (unfold len; lia). cbn [nth]. rewrite app_nth2 by lia. rewrite Nat.sub_diag. reflexivity. }
  rewrite A. change (34 =? 34) with true. cbn [bind]. cbv iota. unfold go_slice. rewrite len_cons, len_app. change (len [34]) with 1. replace (_ && _) with true by lia. cbn [bind].
  f_equal. unfold slice. f_equal. unfold drop, take. change (Z.to_nat 1) with 1%nat. replace (Z.to_nat _) with (length v) by (unfold len; lia). cbn [skipn]. rewrite firstn_app, firstn_all, Nat.sub_diag. cbn [firstn]. apply app_nil_r.
Qed.
Lemma parse_pairs_digest a : forall m, Forall digest_param a -> NoDup (map fst a) -> (forall k, In k (map fst a) -> ~ In k (map fst m)) ->
  parse_pairs m (map delem a) = Ok (m ++ a).
Proof.
  induction a as [|[k v] a IH]; intros m Hp Hn Hd; cbn [map parse_pairs]; [now rewrite app_nil_r|].
  rewrite parse_pair_delem by now inversion Hp. cbn [bind fst snd]. cbn [map fst] in Hn, Hd. inversion Hn as [|x l N1 N2]; subst.
  rewrite mset_app by (apply Hd; now left). rewrite IH.
  - now rewrite <- app_assoc.
  - now inversion Hp.
  - assumption.
  - intros k' Hk' C. rewrite map_app in C. apply in_app_or in C. destruct C as [C|[C|[]]].
    + now apply (Hd k'); [right|].
    + cbn in C. subst. contradiction.
Qed.
Lemma trim_comma p a : Forall digest_param (p :: a) -> trim_space (comma_string (p :: a)) = comma_string (p :: a) /\ Forall ascii (comma_string (p :: a)).
Proof.
  intros H. rewrite comma_entries by assumption. inversion H as [|x y Hp Ha]; subst.
  assert (A : Forall ascii (dtext p ++ flat_map (fun q => 44 :: 32 :: dtext q) a)).
  { apply Forall_app. split; [now apply dtext_ascii|]. clear H Hp p. induction Ha as [|q l Hq Hl IH]; [constructor|]. cbn [flat_map app]. constructor; [unfold ascii; lia|]. constructor; [unfold ascii; lia|]. apply Forall_app. split; [now apply dtext_ascii|assumption]. }
  split; [|assumption]. rewrite trim_space_ascii by assumption. apply trim_by_solid.
  destruct p as [[|c k] v]; destruct Hp as [Hne [Hg _]]; [now elim Hne|]. cbn [fst] in Hg. apply Forall_inv in Hg.
  assert (E : exists s, dtext (c :: k, v) ++ flat_map (fun q => 44 :: 32 :: dtext q) a = c :: s ++ [34]).
  { clear H A Ha. destruct (exists_last (l := a ++ [(@nil Z, @nil Z)])) as [? [? _]]; [destruct a; discriminate|].
    clear. assert (F : forall p, exists s, dtext p = s ++ [34]) by (intros q; exists (fst q ++ 61 :: 34 :: esc (snd q)); unfold dtext; rewrite <- app_assoc; reflexivity).
    assert (G : exists s, k ++ 61 :: 34 :: esc v ++ [34] ++ flat_map (fun q => 44 :: 32 :: dtext q) a = s ++ [34]).
    { destruct a as [|q0 a0] eqn:E; [exists (k ++ 61 :: 34 :: esc v); rewrite <- app_assoc; reflexivity|]. rewrite <- E. assert (Hne : a <> []) by (rewrite E; discriminate). clear E.
      destruct (exists_last Hne) as [l [q ->]]. rewrite flat_map_app. cbn [flat_map]. rewrite app_nil_r. destruct (F q) as [s ->].
      exists (k ++ 61 :: 34 :: esc v ++ [34] ++ flat_map (fun q => 44 :: 32 :: dtext q) l ++ 44 :: 32 :: s). rewrite <- !app_assoc. cbn [app]. rewrite <- !app_assoc. cbn [app]. rewrite <- !app_assoc. reflexivity. }
    destruct G as [s G]. exists s. unfold dtext at 1. cbn [fst snd app]. f_equal. rewrite <- G, <- !app_assoc. cbn [app]. rewrite <- !app_assoc. reflexivity. }
  destruct E as [s ->]. apply solid_ends. constructor; [assumption|]; constructor; [unfold graphic; lia|constructor].
Qed.
Lemma new_auth_digest a pre : digest_args a -> len pre = 7 -> to_lower pre = str "digest " -> new_auth (pre ++ comma_string a) = Ok (mkAuth a (pre ++ comma_string a)).
Proof.
  intros [Hn Hp] Hl Hpre. unfold new_auth. destruct a as [|p a].
  - change (comma_string []) with (@nil Z). rewrite app_nil_r, Hl. reflexivity.
  - destruct (trim_comma p a Hp) as [T A]. rewrite <- Hl. rewrite take_app, drop_app, len_app, Hl, Hpre.
    assert (L : 1 <= len (comma_string (p :: a))). { rewrite comma_entries by assumption. rewrite len_app. pose proof (len_nonneg (flat_map (fun q => 44 :: 32 :: dtext q) a)). assert (1 <= len (dtext p)); [|lia]. unfold dtext. rewrite len_app, len_cons. pose proof (len_nonneg (fst p)). pose proof (len_nonneg (34 :: esc (snd p) ++ [34])). lia. }
    replace (8 <=? 7 + len (comma_string (p :: a))) with true by lia. change (bytes_eqb (str "digest ") (str "digest ")) with true. cbn [andb]. unfold parse_args_pairs, parse_list.
    rewrite T, runes_ascii by assumption. rewrite comma_entries by assumption. rewrite parse_list_digest by (assumption || now left). cbn [app].
    rewrite parse_pairs_digest by (assumption || (intros k _ [])). reflexivity.
Qed.
