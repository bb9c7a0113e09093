(** Spaces around an address change no field of it (C217). *)
From Coq Require Import String.
From Verif Require Import Base.Go Base.GoFacts Base.IO Base.Text Model.Sip Spec.Sip Spec.SipAddr Proofs.Text Proofs.SipUtf8.
Import ListNotations. Local Open Scope list_scope. Local Open Scope Z_scope.

Lemma snoc_app (a b t : bytes) (c : Z) : t ++ [c] = a ++ b -> b = [] /\ a = t ++ [c] \/ exists b', b = b' ++ [c] /\ t = a ++ b'.
Proof.
  intros E. destruct (list_eq_dec Z.eq_dec b []) as [->|N].
  - left. rewrite app_nil_r in E. split; [reflexivity|now symmetry].
  - right. destruct (exists_last N) as (b' & y & ->). rewrite app_assoc in E. apply app_inj_tail in E as [-> ->]. exists b'. split; reflexivity.
Qed.
Lemma front_lead t f p : before_params (32 :: t) f p -> exists f', f = 32 :: f' /\ before_params t f' p.
Proof.
  intros (E & W & P). destruct f as [|c f].
  - cbn [app] in E. destruct P as [->|(x & ->)]; discriminate E.
  - injection E as <- E. exists f. split; [reflexivity|]. split; [exact E|]. split; [|exact P]. now inversion W.
Qed.
Lemma front_trail t f p : before_params (t ++ [32]) f p ->
  p = [] /\ f = t ++ [32] /\ before_params t t [] \/ exists y, p = str ";" ++ y ++ [32] /\ before_params t f (str ";" ++ y).
Proof.
  intros (E & W & P). apply snoc_app in E as [[-> ->]|(p' & -> & ->)].
  - left. split; [reflexivity|]. split; [reflexivity|]. split; [now rewrite app_nil_r|]. split; [|now left]. apply Forall_app in W as [W _]. exact W.
  - right. destruct P as [P|(x & P)]; [destruct p'; discriminate P|]. change (str ";" ++ x) with (59 :: x) in P. destruct p' as [|c y]; [discriminate P|]. injection P as -> E. exists y.
    split; [reflexivity|]. split; [reflexivity|]. split; [exact W|]. right. exists y. reflexivity.
Qed.
Lemma trim_by_trail {A} (p : A -> bool) l x : p x = true -> trim_by p (l ++ [x]) = trim_by p l.
Proof.
  intros H. unfold trim_by. f_equal. assert (G : drop_while p (l ++ [x]) = drop_while p l ++ [x] \/ drop_while p (l ++ [x]) = [] /\ drop_while p l = []).
  { induction l as [|y l IH]; cbn [app drop_while]; [rewrite H; auto|]. destruct (p y); [exact IH|left; reflexivity]. }
  destruct G as [->|[-> ->]]; [|reflexivity]. rewrite rev_app_distr. cbn [rev app drop_while]. now rewrite H.
Qed.
Lemma params_trail y : parse_args_pairs (y ++ [32]) = parse_args_pairs y.
Proof.
  unfold parse_args_pairs. f_equal. f_equal. unfold trim_space. f_equal. rewrite decode_cut by (intros b t E; injection E as <- _; lia).
  change (decode_runes [32]) with [(32, [32])]. now apply trim_by_trail.
Qed.
Lemma words_some t : words t <> [].
Proof. destruct t as [|c t]; cbn [words]; [discriminate|]. destruct (_ || _); [discriminate|]. destruct (words t); discriminate. Qed.
Lemma words_trail t : words (t ++ [32]) = words t ++ [[]].
Proof.
  induction t as [|c t IH]; [reflexivity|]. cbn [app words]. rewrite IH. destruct (_ || _); [reflexivity|]. pose proof (words_some t) as N. destruct (words t); [congruence|]. reflexivity.
Qed.
Lemma uri_nothing d ty u h p : uri_fields [] d ty u h p -> ty = d /\ u = [] /\ h = [] /\ p = [].
Proof.
  intros [(_ & H)|(t & F & _)]; [tauto|]. inversion F as [? ? ? [S E]|]; subst. destruct ty; discriminate E.
Qed.
Lemma fields_lead d ws ty u h p : words_fields d ([] :: ws) ty u h p -> words_fields d ws ty u h p.
Proof. intros H. inversion H as [|? ? ? ? ? ? ? ? ? ? ? U V]; subst. apply uri_nothing in U as (-> & -> & -> & ->). exact V. Qed.
Lemma fields_trail ws : forall d ty u h p, words_fields d (ws ++ [[]]) ty u h p -> words_fields d ws ty u h p.
Proof.
  induction ws as [|w ws IH]; intros d ty u h p H; [exact (fields_lead _ _ _ _ _ _ H)|]. inversion H as [|? ? ? ? ? ? ? ? ? ? ? U V]; subst. econstructor; [exact U|]. exact (IH _ _ _ _ _ V).
Qed.
Definition user_from (u : user) (src : bytes) : user := mkUser (u_type u) (u_name u) (u_user u) (u_host u) (u_port u) (u_args u) src.
Definition via_from (v : via) (src : bytes) : via := mkVia (v_trans v) (v_host v) (v_port v) (v_args v) src.
Lemma user_lead t u : user_of (32 :: t) u -> user_of t (user_from u t).
Proof.
  intros (f & p & B & P & _ & N & W). apply front_lead in B as (f' & -> & B). exists f', p. cbn [words orb Z.eqb Pos.eqb] in W. apply fields_lead in W. cbn [user_from u_args u_src u_name u_type u_user u_host u_port]. auto 6.
Qed.
Lemma user_trail t u : user_of (t ++ [32]) u -> user_of t (user_from u t).
Proof.
  intros (f & p & B & P & _ & N & W). apply front_trail in B as [(-> & -> & B)|(y & -> & B)].
  - exists t, []. rewrite words_trail in W. apply fields_trail in W. cbn [user_from u_args u_src u_name u_type u_user u_host u_port]. auto 6.
  - exists f, (str ";" ++ y). cbn [user_from u_args u_src u_name u_type u_user u_host u_port]. split; [exact B|]. split; [|auto]. right. exists y. split; [reflexivity|].
    destruct P as [[P _]|(z & P & E)]; [discriminate P|]. change (59 :: y ++ [32] = 59 :: z) in P. injection P as <-. now rewrite params_trail in E.
Qed.
Lemma params_both y a : params_of (str ";" ++ y ++ [32]) a -> params_of (str ";" ++ y) a.
Proof.
  intros [[P _]|(z & P & E)]; [discriminate P|]. right. exists y. split; [reflexivity|]. change (59 :: y ++ [32] = 59 :: z) in P. injection P as <-. now rewrite params_trail in E.
Qed.
Lemma via_lead t v : via_of (32 :: t) v -> via_of t (via_from v t).
Proof.
  intros (_ & p & S & P). split; [reflexivity|]. exists p. cbn [via_from v_trans v_host v_port v_args]. split; [|exact P]. destruct S as [(f & B & N & X)|(x & r & f & F & X)].
  - left. apply front_lead in B as (f' & -> & B). exists f'. split; [exact B|]. split; [|exact X]. intros a rest ->. exact (N (32 :: a) rest eq_refl).
  - right. exists x, r, f. split; [|exact X]. inversion F; subst; assumption.
Qed.
Lemma protocol_trail s x : first_protocol s x -> forall t, s = t ++ [32] -> exists x', x = x' ++ [32] /\ first_protocol t x'.
Proof.
  induction 1 as [rest|c s rest N C F IH]; intros t E.
  - symmetry in E. apply snoc_app in E as [[-> E]|(b' & -> & ->)].
    + change (str "SIP/2.0/") with (str "SIP/2.0" ++ [47]) in E. apply app_inj_tail in E as [_ E]. discriminate E.
    + exists b'. split; [reflexivity|]. constructor.
  - destruct t as [|c' t]; [injection E as -> ->; inversion F|]. injection E as <- ->. destruct (IH t eq_refl) as (x' & -> & F'). exists x'. split; [reflexivity|]. constructor; [|exact C|exact F'].
    intros rest' E. apply (N (rest' ++ [32])). change (c :: t ++ [32]) with ((c :: t) ++ [32]). rewrite E. now rewrite <- app_assoc.
Qed.
Lemma unspaced_trail f : unspaced (f ++ [32]) = unspaced f.
Proof. unfold unspaced. rewrite filter_app. cbn [filter Z.eqb Pos.eqb negb]. now rewrite app_nil_r. Qed.
Lemma via_trail t v : via_of (t ++ [32]) v -> via_of t (via_from v t).
Proof.
  intros (_ & p & S & P). split; [reflexivity|]. cbn [via_from v_trans v_host v_port v_args]. destruct S as [(f & B & N & X)|(x & r & f & F & T & B & S)].
  - apply front_trail in B as [(-> & -> & B)|(y & -> & B)].
    + exists []. split; [left; exists t; split; [exact B|]; split; [|exact X]|exact P]. intros a rest E. apply (N a (rest ++ [32])). rewrite E. now rewrite <- !app_assoc.
    + exists (str ";" ++ y). split; [left; exists f; auto|exact (params_both _ _ P)].
  - destruct (protocol_trail _ _ F t eq_refl) as (x' & -> & F'). 
    assert (G : r = [] /\ transport_of x' (v_trans v) [] \/ exists r', r = r' ++ [32] /\ transport_of x' (v_trans v) r').
    { destruct T as [[T E]|(E0 & N & T)].
      - apply snoc_app in E as [[-> E]|(r' & -> & ->)]; [|right; exists r'; split; [reflexivity|left; auto]]. exfalso.
        assert (L : last (v_trans v) 0 <> 32) by (destruct T as [T|[T|[T|T]]]; rewrite T; vm_compute; discriminate). apply L. rewrite E. apply last_last.
      - assert (N' : forall tr r0, transport tr -> x' <> tr ++ r0) by (intros tr r0 H ->; apply (N tr (r0 ++ [32]) H); now rewrite <- app_assoc).
        destruct T as [[T _]|(c & T)]; [destruct x'; discriminate T|]. destruct x' as [|c' x']; injection T as <- <-; [left|right; exists x']; (split; [reflexivity|]); right; (split; [exact E0|]); (split; [exact N'|]); [left; auto|right; exists c'; reflexivity]. }
    destruct G as [(-> & G)|(r' & -> & G)].
    + exists p. split; [|exact P]. right. exists x', [], f. auto.
    + apply front_trail in B as [(-> & -> & B)|(y & -> & B)].
      * exists []. split; [|exact P]. right. exists x', r', r'. unfold sent_by in *. rewrite unspaced_trail in S. auto.
      * exists (str ";" ++ y). split; [|exact (params_both _ _ P)]. right. exists x', r', f. auto.
Qed.

Lemma trim_parts v : exists i j, v = repeat 32 i ++ trim_sp v ++ repeat 32 j.
Proof.
  destruct (trim_by_split (fun c => c =? 32) v) as (x & y & E & X & Y). assert (R : forall l, Forall (fun c => (c =? 32) = true) l -> l = repeat 32 (length l)).
  { intros l F. induction F as [|c l H F IH]; [reflexivity|]. cbn [length repeat]. apply Z.eqb_eq in H. now f_equal. }
  exists (length x), (length y). rewrite <- (R x X), <- (R y Y). exact E.
Qed.
Lemma both_ends (P : bytes -> Prop) : (forall t, P (32 :: t) -> P t) -> (forall t, P (t ++ [32]) -> P t) -> forall v, P v -> P (trim_sp v).
Proof.
  intros L R v H. destruct (trim_parts v) as (i & j & E). rewrite E in H. clear E. generalize dependent (trim_sp v). intros t H.
  assert (G : P (t ++ repeat 32 j)) by (induction i as [|i IH]; [exact H|apply IH, L; exact H]). clear H.
  induction j as [|j IH]; [now rewrite app_nil_r in G|]. apply IH. apply R. rewrite <- app_assoc. replace (repeat 32 j ++ [32]) with (repeat 32 (S j)); [exact G|]. apply repeat_cons.
Qed.
Lemma user_trim v u : user_of v u -> user_of (trim_sp v) (user_from u (trim_sp v)).
Proof.
  intros H. assert (H0 : user_of v (user_from u v)) by (destruct H as (f & p & H1 & H2 & H3 & H4); exists f, p; auto). revert H0. clear H. revert v.
  apply both_ends; intros t H; [apply user_lead in H|apply user_trail in H]; exact H.
Qed.
Lemma via_trim v w : via_of v w -> via_of (trim_sp v) (via_from w (trim_sp v)).
Proof.
  intros H. assert (H0 : via_of v (via_from w v)) by (destruct H as (H1 & H2); split; auto). revert H0. clear H. revert v.
  apply both_ends; intros t H; [apply via_lead in H|apply via_trail in H]; exact H.
Qed.
