(** Proofs for C154. *)
From Coq Require Import String.
From Verif Require Import Base.Go Base.GoFacts Base.IO Base.Text Model.Sip Spec.Sip Proofs.Text Proofs.Sip Proofs.SipMsg Proofs.SipMore Proofs.SipHeaders Spec.SipAddr.
Import ListNotations. Local Open Scope list_scope. Local Open Scope Z_scope.

(** * Fronts and parameters *)
Definition stops (bad p : bytes) : Prop := p = [] \/ exists c t, p = c :: t /\ In c bad.
Lemma prefix_stop bad w : forall s p r, without bad w -> stops bad p -> s ++ p = w ++ r -> exists r', s = w ++ r'.
Proof.
  induction w as [|c w IH]; intros s p r Hw Hp E; [exists s; reflexivity|]. apply Forall_cons_iff in Hw. destruct Hw as [Hc Hw].
  destruct s as [|d s].
  - cbn [app] in E. destruct Hp as [->|[d [t [-> Hd]]]]; [discriminate|]. injection E as -> _. contradiction.
  - cbn [app] in E. injection E as -> E. destruct (IH s p r Hw Hp E) as [r' ->]. exists r'. reflexivity.
Qed.
Lemma before_exists text : exists front params, before_params text front params.
Proof.
  destruct (cut 59 text) as [[a b]|] eqn:E.
  - apply cut_some in E. destruct E as [-> E]. exists a, (59 :: b). split; [reflexivity|]. split; [eapply Forall_impl; [|exact E]; cbn; intros; lia|]. right. now exists b.
  - apply cut_none_inv in E. exists text, []. split; [now rewrite app_nil_r|]. split; [eapply Forall_impl; [|exact E]; cbn; intros; lia|now left].
Qed.
Lemma before_stops text front params : before_params text front params -> stops [59] params.
Proof. intros [_ [_ [->|[t ->]]]]; [now left|right]. exists 59, t. split; [reflexivity|now left]. Qed.
Lemma before_unique text f p f' p' : before_params text f p -> before_params text f' p' -> f = f' /\ p = p'.
Proof.
  intros [-> [H1 H2]] [E [H3 H4]]. revert f' E H3. induction f as [|c f IH]; intros f' E H3.
  - destruct f' as [|d f']; [auto|]. cbn [app] in E. destruct H2 as [->|[t ->]]; [discriminate|]. cbn [app] in E. injection E as <- _. apply Forall_inv in H3. cbn in H3. tauto.
  - apply Forall_cons_iff in H1. destruct H1 as [Hc H1]. destruct f' as [|d f'].
    + cbn [app] in E. destruct H4 as [->|[t ->]]; [discriminate|]. cbn [app] in E. injection E as -> _. cbn in Hc. tauto.
    + cbn [app] in E. injection E as -> E. apply Forall_cons_iff in H3. destruct (IH H1 f' E (proj2 H3)) as [-> ->]. auto.
Qed.
Lemma params_eq params : stops [59] params -> params_of params (match params with [] => Ok new_args | _ => parse_args params end).
Proof.
  intros [->|[c [t [-> [<-|[]]]]]]; [left; auto|right]. exists t. split; [reflexivity|]. unfold parse_args. cbn [cut]. reflexivity.
Qed.
Lemma params_fun params a a' : params_of params a -> params_of params a' -> a = a'.
Proof. intros [[-> ->]|[t [-> ->]]] [[E ->]|[t' [E ->]]]; try discriminate; auto. injection E as ->. reflexivity. Qed.

(** * Schemes *)
Definition scheme_test (s : bytes) : bool :=
  bytes_eqb (sub s 4) (str "sip:") || bytes_eqb (sub s 4) (str "tel:") || bytes_eqb (sub s 5) (str "sips:").
Lemma sub_prefix s n w : bytes_eqb (sub s n) w = true -> s = w ++ skipn n s.
Proof. intros H. apply bytes_eqb_eq in H. rewrite <- H. symmetry. apply firstn_skipn. Qed.
Lemma scheme_test_false s : (forall ty r, ~ at_scheme s ty r) ->
  bytes_eqb (sub s 4) (str "sip:") = false /\ bytes_eqb (sub s 4) (str "tel:") = false /\ bytes_eqb (sub s 5) (str "sips:") = false.
Proof.
  intros H. split; [|split]; match goal with |- ?t = false => destruct t eqn:E end; auto; exfalso; apply sub_prefix in E.
  - apply (H (str "sip") (skipn 4 s)). split; [now left|exact E].
  - apply (H (str "tel") (skipn 4 s)). split; [now do 2 right|exact E].
  - apply (H (str "sips") (skipn 5 s)). split; [right; now left|exact E].
Qed.
Lemma at_scheme_dec s : (exists ty r, at_scheme s ty r) \/ (forall ty r, ~ at_scheme s ty r).
Proof.
  destruct (bytes_eqb (sub s 4) (str "sip:")) eqn:E1; [left; exists (str "sip"), (skipn 4 s); split; [now left|exact (sub_prefix _ _ _ E1)]|].
  destruct (bytes_eqb (sub s 4) (str "tel:")) eqn:E2; [left; exists (str "tel"), (skipn 4 s); split; [now do 2 right|exact (sub_prefix _ _ _ E2)]|].
  destruct (bytes_eqb (sub s 5) (str "sips:")) eqn:E3; [left; exists (str "sips"), (skipn 5 s); split; [right; now left|exact (sub_prefix _ _ _ E3)]|].
  right. intros ty r [[-> | [-> | ->]] ->]; discriminate.
Qed.
Lemma scheme_chars ty : scheme ty -> without [59; 32; 62] (ty ++ str ":").
Proof. intros [-> | [-> | ->]]; unfold without; cbn; repeat constructor; cbn; intuition discriminate. Qed.
Lemma at_scheme_stop s p : stops [59; 32; 62] p -> (forall ty r, ~ at_scheme s ty r) -> forall ty r, ~ at_scheme (s ++ p) ty r.
Proof.
  intros Hp H ty r [Hs E]. rewrite app_assoc in E. destruct (prefix_stop _ _ _ _ _ (scheme_chars ty Hs) Hp E) as [r' ->].
  apply (H ty r'). split; [assumption|]. now rewrite <- app_assoc.
Qed.
Lemma fields_exist s dflt : exists ty u h p, uri_fields s dflt ty u h p.
Proof.
  assert (K : no_scheme s \/ exists ty t, first_scheme s ty t).
  { induction s as [|c s [IH|[ty [t IH]]]].
    - left. intros a ty rest Hs E. destruct a; [|discriminate]. destruct Hs as [-> | [-> | ->]]; discriminate.
    - destruct (at_scheme_dec (c :: s)) as [[ty [r H]]|H]; [right; exists ty, r; now constructor|]. left.
      intros a ty rest Hs E. destruct a as [|d a]; [apply (H ty rest); split; assumption|]. injection E as _ E. apply (IH a ty rest Hs E).
    - destruct (at_scheme_dec (c :: s)) as [[ty' [r H]]|H]; right; [exists ty', r; now constructor|]. exists ty, t. now apply FS_later. }
  destruct K as [K|[ty [t K]]]; [exists dflt, [], [], []; left; auto|].
  assert (L : exists u h p, located t u h p).
  { destruct (cut 64 t) as [[u x]|] eqn:E.
    - apply cut_some in E. destruct E as [-> E]. assert (Hu : without (str "@") u) by (eapply Forall_impl; [|exact E]; cbn; intros; lia).
      destruct (cut 58 x) as [[h p]|] eqn:E2.
      + apply cut_some in E2. destruct E2 as [-> E2]. exists u, h, p. split; [assumption|]. right. right. split; [reflexivity|]. eapply Forall_impl; [|exact E2]; cbn; intros; lia.
      + apply cut_none_inv in E2. exists u, x, []. split; [assumption|]. right. left. split; [reflexivity|]. split; [|reflexivity]. eapply Forall_impl; [|exact E2]; cbn; intros; lia.
    - apply cut_none_inv in E. exists t, [], []. split; [eapply Forall_impl; [|exact E]; cbn; intros; lia|]. left. auto. }
  destruct L as [u [h [p L]]]. exists ty, u, h, p. right. exists t. auto.
Qed.

(** * Request URIs *)
Lemma req_stop f p st ty us ho po : stops [59] p -> req_loop (S f) p st ty us ho po = Ok (p, ty, us, ho, po).
Proof. intros [->|[c [t [-> [<-|[]]]]]]; reflexivity. Qed.
Lemma wo_app bad a b : without bad (a ++ b) <-> without bad a /\ without bad b.
Proof. apply Forall_app. Qed.
Lemma wo_2 a b s : without [a] s -> without [b] s -> Forall (fun c => c <> a /\ c <> b) s.
Proof. unfold without. rewrite !Forall_forall. intros H1 H2 c Hc. specialize (H1 c Hc). specialize (H2 c Hc). cbn in *. intuition. Qed.
Lemma wo_1 a s : without [a] s -> Forall (fun c => c <> a) s.
Proof. unfold without. rewrite !Forall_forall. intros H1 c Hc. specialize (H1 c Hc). cbn in *. intuition. Qed.
Lemma req_located t p u h o ty : without [59] t -> stops [59] p -> located t u h o ->
  exists k, forall f, req_loop (k + S f) (t ++ p) FUser ty [] [] [] = Ok (p, ty, u, h, o).
Proof.
  intros Ht Hp [Hu [[-> [-> ->]]|[[-> [Hh ->]]|[-> Hh]]]].
  - exists (length u). intros f. rewrite req_user by now apply wo_2. now rewrite req_stop.
  - apply wo_app in Ht. destruct Ht as [Ht1 Ht2]. apply (wo_app _ [64]) in Ht2. destruct Ht2 as [_ Ht2].
    exists (length u + S (length h))%nat. intros f. rewrite <- app_assoc, <- Nat.add_assoc, req_user by now apply wo_2. change (str "@" ++ h) with (64 :: h). cbn [app Nat.add req_loop].
    change (64 =? 59) with false. change (64 =? 64) with true. cbv iota. rewrite req_host by now apply wo_2. now rewrite req_stop.
  - apply wo_app in Ht. destruct Ht as [Ht1 Ht2]. apply (wo_app _ [64]) in Ht2. destruct Ht2 as [_ Ht2]. apply wo_app in Ht2. destruct Ht2 as [Ht2 Ht3]. apply (wo_app _ [58]) in Ht3. destruct Ht3 as [_ Ht3].
    exists (length u + S (length h + S (length o)))%nat. intros f. rewrite <- app_assoc, <- Nat.add_assoc, req_user by now apply wo_2. change (str "@" ++ ?x) with (64 :: x). cbn [app Nat.add req_loop].
    change (64 =? 59) with false. change (64 =? 64) with true. cbv iota. rewrite <- app_assoc, <- Nat.add_assoc, req_host by now apply wo_2. change (str ":" ++ o) with (58 :: o). cbn [app Nat.add req_loop].
    change (58 =? 59) with false. change (58 =? 58) with true. cbv iota. rewrite req_port by now apply wo_1. now rewrite req_stop.
Qed.
Lemma stops_more bad bad' p : incl bad bad' -> stops bad p -> stops bad' p.
Proof. intros H [->|[c [t [-> Hc]]]]; [now left|right]. exists c, t. auto. Qed.
Lemma req_step f c s ty us ho po : c <> 59 -> (forall ty r, ~ at_scheme (c :: s) ty r) ->
  req_loop (S f) (c :: s) FBase ty us ho po = req_loop f s FBase ty us ho po.
Proof.
  intros Hc H. destruct (scheme_test_false _ H) as [H1 [H2 H3]]. cbn [req_loop]. replace (c =? 59) with false by lia. now rewrite H1, H2, H3.
Qed.
Lemma req_fields front p dflt ty u h o : without [59] front -> stops [59] p -> uri_fields front dflt ty u h o ->
  exists k, forall f, req_loop (k + S f) (front ++ p) FBase dflt [] [] [] = Ok (p, ty, u, h, o).
Proof.
  intros Hf Hp H. assert (Hp' : stops [59; 32; 62] p) by (eapply stops_more; [|exact Hp]; intros x [<-|[]]; now left).
  destruct H as [[Hn [-> [-> [-> ->]]]]|[t [Hs Hl]]].
  - exists (length front). intros f. induction front as [|c s IH]; [now apply req_stop|]. apply Forall_cons_iff in Hf. destruct Hf as [Hc Hf]. cbn [length Nat.add app].
    rewrite req_step.
    + apply IH; [assumption|]. intros a ty' rest Hs E. apply (Hn (c :: a) ty' rest Hs). cbn [app]. now rewrite E.
    + cbn in Hc. lia.
    + apply (at_scheme_stop (c :: s)); [assumption|]. intros ty' r [Hs E]. now apply (Hn [] ty' r).
  - induction Hs as [s ty t [Hs ->]|c s ty t Hn Hs IH].
    + apply wo_app in Hf. destruct Hf as [_ Hf]. apply wo_app in Hf. destruct Hf as [_ Hf]. destruct (req_located t p u h o ty Hf Hp Hl) as [k K]. exists (S k). intros f.
      rewrite <- K with (f := f). destruct Hs as [-> | [-> | ->]]; reflexivity.
    + apply Forall_cons_iff in Hf. destruct Hf as [Hc Hf]. destruct (IH Hf Hl) as [k K]. exists (S k). intros f. cbn [app Nat.add]. rewrite req_step; [apply K|cbn in Hc; lia|].
      now apply (at_scheme_stop (c :: s)).
Qed.
Lemma request_loop uri front params ty u h o : before_params uri front params -> uri_fields front (str "sip") ty u h o ->
  req_loop (S (length uri)) uri FBase (str "sip") [] [] [] = Ok (params, ty, u, h, o).
Proof.
  intros B F. assert (P := before_stops _ _ _ B). destruct B as [-> [B _]]. destruct (req_fields front params _ _ _ _ _ B P F) as [k K].
  destruct (new_request_total (front ++ params)) as [x E]. rewrite E. f_equal. exact (req_det _ _ _ _ _ _ _ _ _ _ E (K O)).
Qed.

(** * Addresses *)
Lemma wo_in bad s c : without bad s -> In c bad -> Forall (fun x => x <> c) s.
Proof. unfold without. rewrite !Forall_forall. intros H Hc x Hx ->. now apply (H c). Qed.
Definition apart : bytes := [59; 32; 62].
Lemma wo_apart s : without apart s -> Forall (fun c => c <> 59 /\ c <> 62 /\ c <> 32) s.
Proof. unfold without, apart. rewrite !Forall_forall. intros H c Hc. specialize (H c Hc). cbn in H. intuition. Qed.
Lemma wo_apart_1 s d : without apart s -> without [d] s -> Forall (fun c => c <> 59 /\ c <> 62 /\ c <> 32 /\ c <> d) s.
Proof. unfold without, apart. rewrite !Forall_forall. intros H H2 c Hc. specialize (H c Hc). specialize (H2 c Hc). cbn in *. intuition. Qed.
Lemma user_located t p u h o ty na us ho po : without apart t -> located t u h o ->
  exists k st, st <> FName /\ forall f, user_loop (k + f) (t ++ p) FUser ty na us ho po = user_loop f p st ty na (us ++ u) (ho ++ h) (po ++ o).
Proof.
  intros Ht [Hu [[-> [-> ->]]|[[-> [Hh ->]]|[-> Hh]]]].
  - exists (length u), FUser. split; [discriminate|]. intros f. rewrite user_user by now apply wo_apart_1. now rewrite !app_nil_r.
  - apply wo_app in Ht. destruct Ht as [Ht1 Ht2]. apply (wo_app _ [64]) in Ht2. destruct Ht2 as [_ Ht2].
    exists (length u + S (length h))%nat, FHost. split; [discriminate|]. intros f. rewrite <- app_assoc, <- Nat.add_assoc, user_user by now apply wo_apart_1.
    change (str "@" ++ h) with (64 :: h). cbn [app Nat.add]. rewrite user_at, user_host by now apply wo_apart_1. now rewrite app_nil_r.
  - apply wo_app in Ht. destruct Ht as [Ht1 Ht2]. apply (wo_app _ [64]) in Ht2. destruct Ht2 as [_ Ht2]. apply wo_app in Ht2. destruct Ht2 as [Ht2 Ht3]. apply (wo_app _ [58]) in Ht3. destruct Ht3 as [_ Ht3].
    exists (length u + S (length h + S (length o)))%nat, FPort. split; [discriminate|]. intros f. rewrite <- app_assoc, <- Nat.add_assoc, user_user by now apply wo_apart_1.
    change (str "@" ++ ?x) with (64 :: x). cbn [app Nat.add]. rewrite user_at, <- app_assoc, <- Nat.add_assoc, user_host by now apply wo_apart_1.
    change (str ":" ++ o) with (58 :: o). cbn [app Nat.add]. rewrite user_colon, user_port by now apply wo_apart. reflexivity.
Qed.
Lemma user_step c s ty na us ho po : c <> 59 -> ty <> [] -> (forall ty r, ~ at_scheme (c :: s) ty r) ->
  exists k, forall f, user_loop (S k + f) (c :: s) FBase ty na us ho po = user_loop f s FBase ty na us ho po.
Proof.
  intros Hc Ht H. destruct (scheme_test_false _ H) as [H1 [H2 H3]]. destruct (Z.eq_dec c 34) as [->|N].
  - exists 1%nat. intros f. apply user_quote.
  - exists O. intros f. now apply user_skip.
Qed.
Lemma scheme_solid ty : scheme ty -> ty <> [].
Proof. intros [-> | [-> | ->]]; discriminate. Qed.
Lemma first_scheme_scheme s ty t : first_scheme s ty t -> scheme ty.
Proof. induction 1 as [s ty t [H _]|]; assumption. Qed.
Lemma user_word w p dflt ty u h o na us ho po : without apart w -> stops apart p -> dflt <> [] -> uri_fields w dflt ty u h o ->
  exists k st, st <> FName /\ forall f, user_loop (k + f) (w ++ p) FBase dflt na us ho po = user_loop f p st ty na (us ++ u) (ho ++ h) (po ++ o).
Proof.
  intros Hf Hp Hd H. destruct H as [[Hn [-> [-> [-> ->]]]]|[t [Hs Hl]]].
  - rewrite !app_nil_r. induction w as [|c s IH]; [exists O, FBase; split; [discriminate|reflexivity]|]. apply Forall_cons_iff in Hf. destruct Hf as [Hc Hf].
    destruct IH as [k [st [K1 K2]]]; [assumption|intros a ty' rest Hs E; apply (Hn (c :: a) ty' rest Hs); cbn [app]; now rewrite E|].
    destruct (user_step c (s ++ p) dflt na us ho po) as [j J]; [cbn in Hc; lia|assumption|apply (at_scheme_stop (c :: s)); [assumption|intros ty' r [Hs E]; now apply (Hn [] ty' r)]|].
    exists (S j + k)%nat, st. split; [assumption|]. intros f. rewrite <- Nat.add_assoc. cbn [app]. rewrite J. apply K2.
  - induction Hs as [s ty t [Hs ->]|c s ty t Hn Hs IH].
    + apply wo_app in Hf. destruct Hf as [_ Hf]. apply wo_app in Hf. destruct Hf as [_ Hf]. destruct (user_located t p u h o ty na us ho po Hf Hl) as [k [st [K1 K2]]].
      exists (S k), st. split; [assumption|]. intros f. rewrite <- K2. destruct Hs as [-> | [-> | ->]]; reflexivity.
    + apply Forall_cons_iff in Hf. destruct Hf as [Hc Hf]. destruct (IH Hf Hl) as [k [st [K1 K2]]].
      destruct (user_step c (s ++ p) dflt na us ho po) as [j J]; [cbn in Hc; lia|assumption|now apply (at_scheme_stop (c :: s))|].
      exists (S j + k)%nat, st. split; [assumption|]. intros f. rewrite <- Nat.add_assoc. cbn [app]. rewrite J. apply K2.
Qed.
Lemma words_shape s : exists w ws, words s = w :: ws /\ without [32; 62] w /\
  (s = w /\ ws = [] \/ exists c s', s = w ++ c :: s' /\ In c [32; 62] /\ ws = words s').
Proof.
  induction s as [|c s [w [ws [E [H1 H2]]]]]; [exists [], []; split; [reflexivity|]; split; [constructor|now left]|]. cbn [words].
  destruct ((c =? 32) || (c =? 62)) eqn:C.
  - exists [], (words s). split; [reflexivity|]. split; [constructor|]. right. exists c, s. split; [reflexivity|]. split; [cbn; lia|reflexivity].
  - rewrite E. exists (c :: w), ws. split; [reflexivity|]. split; [constructor; [cbn; lia|assumption]|].
    destruct H2 as [[-> ->]|[d [s' [-> [H2 ->]]]]]; [left; auto|right]. exists d, s'. auto.
Qed.
Lemma fields_type w dflt ty u h o : uri_fields w dflt ty u h o -> dflt <> [] -> ty <> [].
Proof. intros [[_ [-> _]]|[t [H _]]] Hd; [assumption|]. apply scheme_solid. eapply first_scheme_scheme, H. Qed.
Lemma user_stop f p st ty na us ho po : stops [59] p -> user_loop (S f) p st ty na us ho po = Ok (p, ty, na, us, ho, po).
Proof. intros [->|[c [t [-> [<-|[]]]]]]; reflexivity. Qed.
Lemma user_sep f c s st ty na us ho po : In c [32; 62] -> st <> FName -> user_loop (S f) (c :: s) st ty na us ho po = user_loop f s FBase ty na us ho po.
Proof. intros [<-|[<-|[]]] H; [|reflexivity]. destruct st; try reflexivity. congruence. Qed.
Lemma user_words n : forall front p dflt ty u h o na us ho po, (length front <= n)%nat -> without [59] front -> stops [59] p -> dflt <> [] ->
  words_fields dflt (words front) ty u h o ->
  exists k, forall f, user_loop (k + S f) (front ++ p) FBase dflt na us ho po = Ok (p, ty, na, us ++ u, ho ++ h, po ++ o).
Proof.
  induction n as [|n IH]; intros front p dflt ty u h o na us ho po Hn Hf Hp Hd H; destruct (words_shape front) as [w [ws [E [W1 W2]]]]; rewrite E in H; inversion H as [|dflt' w' ws' ty1 u1 h1 p1 ty2 u2 h2 p2 F1 F2]; subst; clear H.
  - destruct front; [|cbn in Hn; lia]. destruct W2 as [[<- ->]|[c [s' [W2 _]]]]; [|destruct w; discriminate]. inversion F2; subst. rewrite !app_nil_r.
    destruct (user_word [] p dflt ty u1 h1 p1 na us ho po) as [k [st [K1 K2]]]; [constructor|eapply stops_more; [|exact Hp]; intros x [<-|[]]; now left|assumption|assumption|].
    exists k. intros f. rewrite K2. now apply user_stop.
  - destruct W2 as [[-> ->]|[c [s' [-> [W2 ->]]]]].
    + inversion F2; subst. rewrite !app_nil_r.
      destruct (user_word w p dflt ty u1 h1 p1 na us ho po) as [k [st [K1 K2]]]; [|eapply stops_more; [|exact Hp]; intros x [<-|[]]; now left|assumption|assumption|].
      * unfold without, apart in *. rewrite Forall_forall in *. intros x Hx. specialize (Hf x Hx). specialize (W1 x Hx). cbn in *. intuition.
      * exists k. intros f. rewrite K2. now apply user_stop.
    + apply wo_app in Hf. destruct Hf as [Hf1 Hf2]. apply Forall_cons_iff in Hf2. destruct Hf2 as [_ Hf2].
      destruct (user_word w (c :: s' ++ p) dflt ty1 u1 h1 p1 na us ho po) as [k [st [K1 K2]]]; [|right; exists c, (s' ++ p); split; [reflexivity|right; exact W2]|assumption|assumption|].
      * unfold without, apart in *. rewrite Forall_forall in *. intros x Hx. specialize (Hf1 x Hx). specialize (W1 x Hx). cbn in *. intuition.
      * destruct (IH s' p ty1 ty u2 h2 p2 na (us ++ u1) (ho ++ h1) (po ++ p1)) as [j J]; [rewrite app_length in Hn; cbn in Hn; lia|assumption|assumption|eapply fields_type; eassumption|assumption|].
        exists (k + S j)%nat. intros f. rewrite <- app_assoc, <- Nat.add_assoc. cbn [app]. rewrite K2. cbn [Nat.add]. rewrite user_sep by assumption. rewrite J. now rewrite <- !app_assoc.
Qed.
Lemma words_fields_exist ws : forall dflt, exists ty u h o, words_fields dflt ws ty u h o.
Proof.
  induction ws as [|w ws IH]; intros dflt; [do 4 eexists; constructor|]. destruct (fields_exist w dflt) as [ty [u [h [o F]]]].
  destruct (IH ty) as [ty' [u' [h' [o' F']]]]. do 4 eexists. econstructor; eassumption.
Qed.
Lemma address_loop uri front params ty u h o : before_params uri front params -> words_fields (str "sip") (words front) ty u h o ->
  user_loop (2 * length uri + 2) uri FBase (str "sip") [] [] [] [] = Ok (params, ty, [], u, h, o).
Proof.
  intros B F. assert (P := before_stops _ _ _ B). destruct B as [-> [B _]].
  destruct (user_words (length front) front params (str "sip") ty u h o [] [] [] []) as [k K]; [lia|assumption|assumption|discriminate|assumption|].
  destruct (user_loop_total (front ++ params)) as [x E]. rewrite E. f_equal. exact (user_det _ _ _ _ _ _ _ _ _ _ _ E (K O)).
Qed.

(** * Via *)
Lemma via_stop f p st tr ho po : stops [59] p -> via_loop (S f) p st tr ho po = Ok (p, tr, ho, po).
Proof. intros [->|[c [t [-> [<-|[]]]]]]; reflexivity. Qed.
Lemma unspaced_app a b : unspaced (a ++ b) = unspaced a ++ unspaced b.
Proof. apply filter_app. Qed.
Lemma via_port_of s : forall f p tr ho po, without [59] s -> via_loop (length s + f) (s ++ p) FPort tr ho po = via_loop f p FPort tr ho (po ++ unspaced s).
Proof.
  induction s as [|c s IH]; intros f p tr ho po H; [cbn; now rewrite app_nil_r|]. apply Forall_cons_iff in H. destruct H as [Hc H]. cbn [length Nat.add app via_loop].
  replace (c =? 59) with false by (cbn in Hc; lia). unfold unspaced. cbn [filter]. destruct (c =? 32); cbn [negb]; rewrite IH by assumption; [reflexivity|]. now rewrite <- app_assoc.
Qed.
Lemma via_host_of s : forall p tr ho h o, without [59] s -> stops [59] p -> sent_by s h o ->
  exists k, forall f, via_loop (k + S f) (s ++ p) FHost tr ho [] = Ok (p, tr, ho ++ h, o).
Proof.
  induction s as [|c s IH]; intros p tr ho h o Hs Hp [Hh H].
  - exists O. intros f. cbn [app Nat.add]. destruct H as [[<- ->]|H]; [rewrite app_nil_r; now apply via_stop|]. destruct h; discriminate.
  - apply Forall_cons_iff in Hs. destruct Hs as [Hc Hs]. assert (C : (c =? 59) = false) by (cbn in Hc; lia). unfold unspaced in H. cbn [filter] in H.
    destruct (c =? 32) eqn:E; cbn [negb] in H.
    + destruct (IH p tr ho h o Hs Hp (conj Hh H)) as [k K]. exists (S k). intros f. cbn [app Nat.add via_loop]. rewrite C, E. apply K.
    + destruct (c =? 58) eqn:E2.
      * destruct H as [[<- ->]|H]; [apply Forall_inv in Hh; cbn in Hh; lia|]. destruct h as [|d h]; [|injection H as <- _; apply Forall_inv in Hh; cbn in Hh; lia].
        injection H as -> <-. exists (S (length s)). intros f. cbn [app Nat.add via_loop]. rewrite C, E, E2. rewrite via_port_of by assumption. rewrite via_stop by assumption. rewrite app_nil_r. reflexivity.
      * assert (K : exists h', h = c :: h' /\ sent_by s h' o).
        { destruct H as [[<- ->]|H]; [exists (unspaced s); split; [reflexivity|]; split; [now apply Forall_cons_iff in Hh|left; auto]|].
          destruct h as [|d h]; [injection H as -> _; lia|]. injection H as <- H. exists h. split; [reflexivity|]. split; [now apply Forall_cons_iff in Hh|right; exact H]. }
        destruct K as [h' [-> K]]. destruct (IH p tr (ho ++ [c]) h' o Hs Hp K) as [k K']. exists (S k). intros f. cbn [app Nat.add via_loop]. rewrite C, E, E2, K'. now rewrite <- app_assoc.
Qed.
Lemma via_base_step f c s tr ho po : c <> 59 -> (forall r, c :: s <> str "SIP/2.0/" ++ r) -> via_loop (S f) (c :: s) FBase tr ho po = via_loop f s FBase tr ho po.
Proof.
  intros Hc H. cbn [via_loop]. replace (c =? 59) with false by lia. destruct (c =? 32); [reflexivity|].
  destruct (bytes_eqb (sub (c :: s) 8) (str "SIP/2.0/")) eqn:E; [|reflexivity]. apply sub_prefix in E. exfalso. exact (H _ E).
Qed.
Lemma via_transport t tr rest f ho : transport_of t tr rest -> via_loop (S f) (str "SIP/2.0/" ++ t) FBase [] ho [] = via_loop f rest FHost tr ho [].
Proof.
  intros [[T ->]|[-> [N H]]]; [destruct T as [-> | [-> | [-> | ->]]]; reflexivity|].
  assert (N4 : bytes_eqb (sub t 3) (str "UDP") = false /\ bytes_eqb (sub t 3) (str "TCP") = false /\ bytes_eqb (sub t 3) (str "TLS") = false /\ bytes_eqb (sub t 4) (str "SCTP") = false).
  { repeat split; match goal with |- ?b = false => destruct b eqn:E end; auto; exfalso; apply sub_prefix in E; refine (N _ _ _ E); unfold transport; auto. }
  destruct N4 as [N1 [N2 [N3 N4]]]. change (str "SIP/2.0/" ++ t) with (83 :: 73 :: 80 :: 47 :: 50 :: 46 :: 48 :: 47 :: t). cbn [via_loop].
  change (83 =? 59) with false. change (83 =? 32) with false. cbv iota. change (bytes_eqb (sub (83 :: 73 :: 80 :: 47 :: 50 :: 46 :: 48 :: 47 :: t) 8) (str "SIP/2.0/")) with true. cbv iota zeta.
  change (skipn 8 (83 :: 73 :: 80 :: 47 :: 50 :: 46 :: 48 :: 47 :: t)) with t. rewrite N1, N2, N3, N4. cbn [orb].
  destruct H as [[-> ->]|[c ->]]; reflexivity.
Qed.
Lemma via_split_loop text tr h o params : via_split text tr h o params -> stops [59] params /\ exists k, forall f, via_loop (k + S f) text FBase [] [] [] = Ok (params, tr, h, o).
Proof.
  intros [[front [B [N [-> [-> ->]]]]]|[t [rest [front [P [T [B S]]]]]]]; (split; [exact (before_stops _ _ _ B)|]).
  - assert (Hp := before_stops _ _ _ B). destruct B as [-> [B _]]. exists (length front). intros f. induction front as [|c s IH]; [now apply via_stop|]. apply Forall_cons_iff in B. destruct B as [Hc B].
    cbn [length Nat.add app]. rewrite via_base_step.
    + apply IH; try assumption. intros a r E. apply (N (c :: a) r). cbn [app]. now rewrite E.
    + cbn in Hc. lia.
    + intros r E. assert (W : without [59] (str "SIP/2.0/")) by (unfold without; cbn; repeat constructor; cbn; lia).
      destruct (prefix_stop [59] _ (c :: s) params r W Hp E) as [r' E']. exact (N [] r' E').
  - assert (Hp := before_stops _ _ _ B). destruct B as [-> [B _]]. destruct (via_host_of front params tr [] h o B Hp S) as [k K].
    induction P as [t|c s t N Hc P IH].
    + exists (Datatypes.S k). intros f. cbn [Nat.add]. rewrite (via_transport t tr _ _ _ T). apply K.
    + destruct (IH T) as [j J]. exists (Datatypes.S j). intros f. cbn [Nat.add]. rewrite via_base_step by assumption. apply J.
Qed.
Lemma transport_exists t : exists tr rest, transport_of t tr rest.
Proof.
  destruct (bytes_eqb (sub t 3) (str "UDP")) eqn:E1; [exists (str "UDP"), (skipn 3 t); left; split; [unfold transport; auto|exact (sub_prefix _ _ _ E1)]|].
  destruct (bytes_eqb (sub t 3) (str "TCP")) eqn:E2; [exists (str "TCP"), (skipn 3 t); left; split; [unfold transport; auto|exact (sub_prefix _ _ _ E2)]|].
  destruct (bytes_eqb (sub t 3) (str "TLS")) eqn:E3; [exists (str "TLS"), (skipn 3 t); left; split; [unfold transport; auto|exact (sub_prefix _ _ _ E3)]|].
  destruct (bytes_eqb (sub t 4) (str "SCTP")) eqn:E4; [exists (str "SCTP"), (skipn 4 t); left; split; [unfold transport; auto|exact (sub_prefix _ _ _ E4)]|].
  exists [], (skipn 1 t). right. split; [reflexivity|]. split.
  - intros tr r [-> | [-> | [-> | ->]]] ->; discriminate.
  - destruct t as [|c t]; [left; auto|right]. exists c. reflexivity.
Qed.
Lemma sent_by_exists s : exists h o, sent_by s h o.
Proof.
  unfold sent_by. destruct (cut 58 (unspaced s)) as [[h o]|] eqn:E.
  - apply cut_some in E. destruct E as [-> E]. exists h, o. split; [eapply Forall_impl; [|exact E]; cbn; intros; lia|right; reflexivity].
  - apply cut_none_inv in E. exists (unspaced s), []. split; [eapply Forall_impl; [|exact E]; cbn; intros; lia|left; auto].
Qed.
Lemma via_split_exists text : exists tr h o params, via_split text tr h o params.
Proof.
  assert (K : (exists t, first_protocol text t) \/ exists front params, before_params text front params /\ no_protocol front).
  { induction text as [|c s IH].
    - right. exists [], []. split; [split; [reflexivity|split; [constructor|now left]]|]. intros a r E. destruct a; discriminate.
    - destruct (bytes_eqb (sub (c :: s) 8) (str "SIP/2.0/")) eqn:E; [left; exists (skipn 8 (c :: s)); rewrite (sub_prefix _ _ _ E) at 1; constructor|].
      assert (N : forall r, c :: s <> str "SIP/2.0/" ++ r) by (intros r C; rewrite C in E; discriminate).
      destruct (Z.eq_dec c 59) as [->|Hc]; [right; exists [], (59 :: s); split; [split; [reflexivity|split; [constructor|right; now exists s]]|intros a r C; destruct a; discriminate]|].
      destruct IH as [[t IH]|[front [params [[-> [B1 B2]] IH]]]]; [left; exists t; now apply FP_later|]. right. exists (c :: front), params. split.
      + split; [reflexivity|]. split; [constructor; [cbn; lia|assumption]|assumption].
      + intros a r C. destruct a as [|d a]; [|injection C as _ C; exact (IH a r C)]. apply (N (r ++ params)). change (c :: front ++ params) with ((c :: front) ++ params). rewrite C. cbn [app]. now rewrite <- app_assoc. }
  destruct K as [[t K]|[front [params [B N]]]].
  - destruct (transport_exists t) as [tr [rest T]]. destruct (before_exists rest) as [front [params B]]. destruct (sent_by_exists front) as [h [o S]].
    exists tr, h, o, params. right. exists t, rest, front. auto.
  - exists [], [], [], params. left. exists front. auto.
Qed.
Lemma via_text text tr h o params : via_split text tr h o params ->
  via_loop (S (length text)) text FBase [] [] [] = Ok (params, tr, h, o).
Proof.
  intros V. destruct (via_split_loop _ _ _ _ _ V) as [_ [k K]]. destruct (via_total (S (length text)) text FBase [] [] []) as [x E]; [lia|]. rewrite E. f_equal. exact (via_det _ _ _ _ _ _ _ _ _ E (K O)).
Qed.
