(** Proofs about SIP messages that share maps, requests and bodies. *)
From Coq Require Import String Permutation.
From Verif Require Import Base.Go Base.GoFacts Base.IO Base.Text Model.Sip Model.SipShare Spec.Sip Spec.SipShare Proofs.Text Proofs.Sip Proofs.SipMsg Proofs.SipFields.
Import ListNotations. Local Open Scope list_scope. Local Open Scope Z_scope.

Lemma store_length {A} n (x : A) l : length (store n x l) = length l.
Proof. revert n. induction l as [|y l IH]; intros [|n]; cbn [store length]; auto. Qed.
Lemma store_same {A} n (x : A) l : (n < length l)%nat -> nth_error (store n x l) n = Some x.
Proof. revert n. induction l as [|y l IH]; intros [|n] H; cbn [store length nth_error] in *; [lia|lia|reflexivity|apply IH; lia]. Qed.
Lemma store_other {A} n m (x : A) l : n <> m -> nth_error (store n x l) m = nth_error l m.
Proof. revert n m. induction l as [|y l IH]; intros [|n] [|m] H; cbn [store nth_error]; auto; congruence. Qed.
Lemma cell_has {A} (l : list A) c : has l c -> c = None \/ exists n x, c = Some n /\ nth_error l n = Some x.
Proof.
  destruct c as [n|]; [|auto]. intros H. right. cbn [has] in H. destruct (nth_error l n) as [x|] eqn:E; [eauto|]. apply nth_error_None in E. lia.
Qed.
Lemma cell_app {A} (l l' : list A) c : has l c -> cell (l ++ l') c = cell l c.
Proof. destruct c as [n|]; [|reflexivity]. cbn. intros H. apply nth_error_app1. exact H. Qed.
Lemma cell_store {A} n (x : A) l c : c <> Some n -> cell (store n x l) c = cell l c.
Proof. destruct c as [m|]; [|reflexivity]. cbn. intros H. apply store_other. congruence. Qed.
Lemma has_app {A} (l l' : list A) c : has l c -> has (l ++ l') c.
Proof. destruct c; cbn; [rewrite app_length; lia|auto]. Qed.
Lemma has_store {A} n (x : A) l c : has l c -> has (store n x l) c.
Proof. destruct c; cbn; [rewrite store_length; lia|auto]. Qed.
Lemma has_store_at {A} k (x : option A) l c : has l c -> has (store_at k x l) c.
Proof. destruct k, x; cbn [store_at]; auto. apply has_store. Qed.

Definition CL : bytes := str "content-length".
Definition hrel (a b : option hmap) : Prop :=
  match a, b with Some m, Some m' => forall x, mset CL x m = mset CL x m' | None, None => True | _, _ => False end.
Definition rrel (a b : option request) : Prop :=
  match a, b with Some r, Some r' => request_bytes r = request_bytes r' | None, None => True | _, _ => False end.
Lemma hrel_refl a : hrel a a.
Proof. destruct a; cbn; auto. Qed.
Lemma rrel_refl a : rrel a a.
Proof. destruct a; cbn; auto. Qed.
Lemma hrel_trans a b c : hrel a b -> hrel b c -> hrel a c.
Proof. destruct a, b, c; cbn; try tauto. intros H1 H2 x. rewrite H1. apply H2. Qed.
Lemma rrel_trans a b c : rrel a b -> rrel b c -> rrel a c.
Proof. destruct a, b, c; cbn; try tauto. congruence. Qed.
(** The message is the same but for what serializing writes. *)
Definition kept (g : msg) (p q : pool) : Prop :=
  hrel (cell (p_heads p) (g_head g)) (cell (p_heads q) (g_head g)) /\ rrel (cell (p_reqs p) (g_req g)) (cell (p_reqs q) (g_req g)) /\
  cell (p_bodies q) (g_body g) = cell (p_bodies p) (g_body g).
Definition placed (g : msg) (p : pool) : Prop := has (p_heads p) (g_head g) /\ has (p_reqs p) (g_req g) /\ has (p_bodies p) (g_body g).

Lemma kept_text order g p q : kept g p q ->
  match sip_bytes order (view p g), sip_bytes order (view q g) with
  | Ok (_, t), Ok (_, t') => t = t'
  | Panic, Panic => True
  | _, _ => False
  end.
Proof.
  intros (H1 & H2 & H3). unfold view. rewrite H3. destruct g as [own gh gr gb]. cbn [g_own g_head g_req g_body] in *.
  destruct own as [co pa ve hd fr tto ct cs vi me rq ir cd st la]. unfold sip_bytes, first_line, set_content_length, set_first.
  change (to_lower (str "content-length")) with CL.
  destruct (cell (p_heads p) gh) as [m|], (cell (p_heads q) gh) as [m'|]; cbn [hrel] in H1; try contradiction;
  destruct (cell (p_reqs p) gr) as [r|], (cell (p_reqs q) gr) as [r'|]; cbn [rrel] in H2; try contradiction; destruct ir; cbn -[CL header_bytes itoa version_string status_string status_text method_string request_bytes mset len]; auto;
    rewrite ?H1, ?H2; reflexivity.
Qed.
(** What a successful Bytes writes. *)
Lemma bytes_writes order s s' t : sip_bytes order s = Ok (s', t) ->
  exists m, s_headers s = Some m /\ (exists x, s_headers s' = Some (mset CL x m)) /\
    (s_request s' = s_request s \/ exists r, s_request s = Some r /\ s_request s' = Some (request_stored r)).
Proof.
  destruct s as [co pa ve [m|] fr tto ct cs vi me rq [|] cd st la]; unfold sip_bytes, first_line, set_content_length, set_first; cbn; try (destruct rq as [r|]; cbn); try discriminate;
    intros E; injection E as <- <-; exists m; (split; [reflexivity|]); (split; [eexists; reflexivity|]); cbn; eauto.
Qed.
Lemma step_msgs o p i g : nth_error (p_msgs p) i = Some g -> leaves i g o -> nth_error (p_msgs (fst (step o p))) i = Some g.
Proof.
  intros H L. destruct o; cbn [step fst]; try exact H.
  - destruct (nth_error (p_heads p) h); exact H.
  - destruct (nth_error (p_bodies p) b); exact H.
  - unfold make. destruct (cell (p_heads p) h) as [[|? ?]|]; cbn [p_msgs]; (rewrite nth_error_app1; [exact H|]; apply nth_error_Some; congruence).
  - unfold make. destruct (cell (p_heads p) h) as [[|? ?]|]; cbn [p_msgs]; (rewrite nth_error_app1; [exact H|]; apply nth_error_Some; congruence).
  - destruct (nth_error (p_msgs p) g0) as [x|]; [|exact H]. cbn [p_msgs]. rewrite store_other by (cbn in L; congruence). exact H.
  - destruct (nth_error (p_msgs p) g0) as [x|]; [|exact H]. cbn [p_msgs]. rewrite store_other by (cbn in L; congruence). exact H.
  - unfold to_bytes. destruct (nth_error (p_msgs p) g0) as [x|]; [|exact H]. destruct (sip_bytes order (view p x)) as [[s t]| | |]; exact H.
Qed.
Lemma step_placed o p g : placed g p -> placed g (fst (step o p)).
Proof.
  intros (H1 & H2 & H3). unfold placed. destruct o; cbn [step fst]; try (cbn [p_heads p_reqs p_bodies]; auto using has_app, has_store; fail).
  - destruct (nth_error (p_heads p) h); cbn [p_heads p_reqs p_bodies]; auto using has_store.
  - destruct (nth_error (p_bodies p) b); cbn [p_heads p_reqs p_bodies]; auto using has_store.
  - unfold make. destruct (cell (p_heads p) h) as [[|? ?]|]; cbn [p_heads p_reqs p_bodies]; auto using has_app.
  - unfold make. destruct (cell (p_heads p) h) as [[|? ?]|]; cbn [p_heads p_reqs p_bodies]; auto using has_app.
  - destruct (nth_error (p_msgs p) g0); cbn [p_heads p_reqs p_bodies]; auto.
  - destruct (nth_error (p_msgs p) g0); cbn [p_heads p_reqs p_bodies]; auto.
  - unfold to_bytes. destruct (nth_error (p_msgs p) g0) as [x|]; [|auto]. destruct (sip_bytes order (view p x)) as [[s t]| | |]; cbn [fst p_heads p_reqs p_bodies]; auto using has_store_at.
Qed.
Lemma step_kept o p i g : placed g p -> leaves i g o -> kept g p (fst (step o p)).
Proof.
  intros (H1 & H2 & H3) L. unfold kept. assert (R : kept g p p) by (repeat split; auto using hrel_refl, rrel_refl).
  destruct o; cbn [step fst leaves] in *; try (cbn [p_heads p_reqs p_bodies]; rewrite ?cell_app by assumption; apply R).
  - destruct (nth_error (p_heads p) h); cbn [p_heads p_reqs p_bodies]; [rewrite cell_store by congruence|]; apply R.
  - cbn [p_heads p_reqs p_bodies]. rewrite cell_store by congruence. apply R.
  - destruct (nth_error (p_bodies p) b); cbn [p_heads p_reqs p_bodies]; [rewrite cell_store by congruence|]; apply R.
  - unfold make. destruct (cell (p_heads p) h) as [[|? ?]|]; cbn [p_heads p_reqs p_bodies]; rewrite ?cell_app by assumption; apply R.
  - unfold make. destruct (cell (p_heads p) h) as [[|? ?]|]; cbn [p_heads p_reqs p_bodies]; rewrite ?cell_app by assumption; apply R.
  - destruct (nth_error (p_msgs p) g0); cbn [p_heads p_reqs p_bodies]; apply R.
  - destruct (nth_error (p_msgs p) g0); cbn [p_heads p_reqs p_bodies]; apply R.
  - unfold to_bytes. destruct (nth_error (p_msgs p) g0) as [x|]; [|apply R]. destruct (sip_bytes order (view p x)) as [[s t]| | |] eqn:E; cbn [fst p_heads p_reqs p_bodies]; try apply R.
    destruct (bytes_writes _ _ _ _ E) as (m & W1 & (v & W2) & W3). unfold view, set_body, with_layer, with_headers, with_request in W1, W3. cbn [s_headers s_request] in W1, W3.
    split; [|split; [|reflexivity]].
    + rewrite W2. destruct (g_head x) as [n|] eqn:Ex; cbn [store_at]; [|apply hrel_refl]. destruct (g_head g) as [k|] eqn:Eg; [|exact I].
      destruct (PeanoNat.Nat.eq_dec n k) as [->|N]; [|rewrite cell_store by congruence; apply hrel_refl].
      cbn [cell] in *. rewrite W1, store_same by exact H1. cbn [hrel]. intros y. rewrite mset_mset. reflexivity.
    + destruct (g_req x) as [n|] eqn:Ex; cbn [store_at]; [|apply rrel_refl]. destruct (g_req g) as [k|] eqn:Eg; [|exact I].
      destruct (PeanoNat.Nat.eq_dec n k) as [->|N]; [|destruct (s_request s); [rewrite cell_store by congruence|]; apply rrel_refl].
      destruct W3 as [W3|(r & W3 & W4)].
      * rewrite W3. cbn [cell] in *. destruct (nth_error (p_reqs p) k) as [r|] eqn:Er; [|rewrite Er; apply I]. rewrite store_same by exact H2. reflexivity.
      * rewrite W4. cbn [cell] in *. rewrite W3. rewrite store_same by exact H2. cbn [rrel]. reflexivity.
Qed.
Lemma run_app os os' p : run (os ++ os') p = run os' (run os p).
Proof. revert p. induction os as [|o os IH]; intros p; cbn [run app]; [reflexivity|apply IH]. Qed.
Lemma run_kept os : forall p i g, nth_error (p_msgs p) i = Some g -> placed g p -> Forall (leaves i g) os ->
  nth_error (p_msgs (run os p)) i = Some g /\ placed g (run os p) /\ kept g p (run os p).
Proof.
  induction os as [|o os IH]; intros p i g H1 H2 H3; cbn [run].
  - split; [exact H1|]. split; [exact H2|]. repeat split; auto using hrel_refl, rrel_refl.
  - apply Forall_cons_iff in H3. destruct H3 as [L H3]. destruct (step_kept o p i g H2 L) as (K1 & K2 & K3).
    destruct (IH (fst (step o p)) i g (step_msgs _ _ _ _ H1 L) (step_placed _ _ _ H2) H3) as (R1 & R2 & Q1 & Q2 & Q3).
    split; [exact R1|]. split; [exact R2|]. split; [eapply hrel_trans; eassumption|]. split; [eapply rrel_trans; eassumption|congruence].
Qed.
Lemma text_kept order i g p q : nth_error (p_msgs p) i = Some g -> nth_error (p_msgs q) i = Some g -> kept g p q -> text order i q = text order i p.
Proof.
  intros H1 H2 K. unfold text. cbn [step]. unfold to_bytes. rewrite H1, H2. pose proof (kept_text order g p q K) as T.
  destruct (sip_bytes order (view p g)) as [[s t]|e| |], (sip_bytes order (view q g)) as [[s' t']|e'| |]; try contradiction; cbn [snd]; congruence.
Qed.
Lemma legal_placed os : forall p, legal os p -> (forall g, In g (p_msgs p) -> placed g p) -> forall g, In g (p_msgs (run os p)) -> placed g (run os p).
Proof.
  induction os as [|o os IH]; intros p L H; cbn [run]; [exact H|]. destruct L as [Lo L]. apply (IH _ L). clear IH L os.
  assert (K : forall g, In g (p_msgs p) -> placed g (fst (step o p))) by (intros g Hg; apply step_placed, H, Hg).
  assert (B : forall (b : option nat), has (p_bodies p) b -> has (p_bodies p) (match cell (p_bodies p) b with Some (_ :: _) => b | _ => None end)) by (intros b Hb; destruct (cell (p_bodies p) b) as [[|? ?]|]; cbn; auto).
  assert (M : forall own r h b, has (p_reqs p) r -> has (p_heads p) h -> has (p_bodies p) b -> fst (step o p) = make own r h b p -> forall g, In g (p_msgs (make own r h b p)) -> placed g (make own r h b p)).
  { intros own r h b H1 H2 H3 E g Hg. rewrite E in K. unfold make in *. destruct (cell (p_heads p) h) as [[|? ?]|] eqn:Eh; cbn [p_msgs] in *; apply in_app_or in Hg; (destruct Hg as [Hg|[<-|[]]]; [apply K, Hg|]);
      (split; [|split]); cbn [g_head g_req g_body p_heads p_reqs p_bodies]; auto; cbn [has]; rewrite app_length; cbn [length]; lia. }
  destruct o; cbn [step fst legal_op] in *; try exact K.
  - destruct (nth_error (p_heads p) h); exact K.
  - destruct (nth_error (p_bodies p) b); exact K.
  - destruct Lo as (L1 & L2 & L3). now apply M.
  - destruct Lo as (L2 & L3). apply M; auto. exact I.
  - destruct (nth_error (p_msgs p) g) as [x|] eqn:E; [|exact K]. cbn [p_msgs] in *. intros y Hy. apply In_nth_error in Hy. destruct Hy as [n Hn].
    destruct (PeanoNat.Nat.eq_dec g n) as [->|N]; [|rewrite store_other in Hn by exact N; apply K; eapply nth_error_In, Hn].
    rewrite store_same in Hn by apply Lo. injection Hn as <-. destruct (H x (nth_error_In _ _ E)) as (P1 & P2 & P3). split; [|split]; cbn; tauto.
  - destruct (nth_error (p_msgs p) g) as [x|] eqn:E; [|exact K]. cbn [p_msgs] in *. intros y Hy. apply In_nth_error in Hy. destruct Hy as [n Hn].
    destruct (PeanoNat.Nat.eq_dec g n) as [->|N]; [|rewrite store_other in Hn by exact N; apply K; eapply nth_error_In, Hn].
    rewrite store_same in Hn by apply Lo. injection Hn as <-. destruct (H x (nth_error_In _ _ E)) as (P1 & P2 & P3). split; [|split]; cbn; tauto.
  - unfold to_bytes in *. destruct (nth_error (p_msgs p) g) as [x|]; [|exact K]. destruct (sip_bytes order (view p x)) as [[s t]| | |]; exact K.
Qed.

Lemma text_view order i p g : nth_error (p_msgs p) i = Some g -> text order i p = own_text order (view p g).
Proof.
  intros H. unfold text, own_text. cbn [step]. unfold to_bytes. rewrite H. destruct (sip_bytes order (view p g)) as [[s t]|e| |]; reflexivity.
Qed.
Lemma make_last own r h b p : exists g, nth_error (p_msgs (make own r h b p)) (length (p_msgs p)) = Some g /\ g_own g = own /\ g_req g = r /\
  cell (p_heads (make own r h b p)) (g_head g) = Some (match cell (p_heads p) h with Some m => m | None => [] end) /\
  match cell (p_bodies p) (g_body g) with Some x => x | None => [] end = body_of p b /\ p_reqs (make own r h b p) = p_reqs p /\ p_bodies (make own r h b p) = p_bodies p.
Proof.
  assert (N : forall (l : list msg) x, nth_error (l ++ [x]) (length l) = Some x) by (intros l x; rewrite nth_error_app2, PeanoNat.Nat.sub_diag by lia; reflexivity).
  assert (N' : forall (l : list hmap) x, nth_error (l ++ [x]) (length l) = Some x) by (intros l x; rewrite nth_error_app2, PeanoNat.Nat.sub_diag by lia; reflexivity).
  unfold make, body_of. destruct (cell (p_heads p) h) as [[|e m]|] eqn:E; cbn [p_msgs p_heads p_reqs p_bodies]; rewrite N; eexists; (split; [reflexivity|]); cbn [g_own g_req g_head g_body];
    (split; [reflexivity|]); (split; [reflexivity|]); (split; [cbn [cell]; rewrite ?N'; auto|]);
    (split; [|split; reflexivity]); destruct (cell (p_bodies p) b) as [[|y l]|] eqn:Eb; cbn [cell]; rewrite ?Eb; reflexivity.
Qed.
