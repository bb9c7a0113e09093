(** C138, C139: SIP messages made from the same header map, request or body. *)
From Coq Require Import String Permutation.
From Verif Require Import Base.Go Base.GoFacts Base.IO Base.Text Model.Sip Model.SipShare Spec.Sip Spec.SipShare Proofs.Text Proofs.Sip Proofs.SipMsg Proofs.SipFields Proofs.SipShare.
Import ListNotations. Local Open Scope list_scope. Local Open Scope Z_scope.

(** ** C138 *)
(** Over any history: calls that do not themselves change message i, its map, its request or its body, among them any number
    of Bytes calls on messages that share these, leave the text of message i as it is. *)
Theorem C138_shared_messages_isolated : forall before i g after order, legal before no_pool ->
  nth_error (p_msgs (run before no_pool)) i = Some g -> Forall (leaves i g) after ->
  text order i (run (before ++ after) no_pool) = text order i (run before no_pool).
Proof.
  intros before i g after order HL Hi HA. rewrite run_app.
  assert (P : placed g (run before no_pool)) by (eapply (legal_placed before no_pool HL); [intros x []|eapply nth_error_In, Hi]).
  destruct (run_kept after _ i g Hi P HA) as (R1 & _ & K). eapply text_kept; eassumption.
Qed.
Print Assumptions C138_shared_messages_isolated.
(** That text is the one the message would have with a map, a request and a body of its own. *)
Theorem C138_as_if_their_own : forall order m code r h b p,
  text order (length (p_msgs p)) (fst (step (MakeReq m r h b) p)) = own_text order (make_request m (cell (p_reqs p) r) (cell (p_heads p) h) (body_of p b)) /\
  text order (length (p_msgs p)) (fst (step (MakeResp code h b) p)) = own_text order (make_response code (cell (p_heads p) h) (body_of p b)).
Proof.
  intros order m code r h b p. cbn [step fst]. split.
  - destruct (make_last (with_version 2 (with_request m None new_sip)) r h b p) as (g & H1 & H2 & H3 & H4 & H5 & H6 & H7). rewrite (text_view _ _ _ _ H1). f_equal. unfold own_text.
    f_equal. f_equal. unfold view. rewrite H2, H3, H4, H6, H7, H5. unfold make_request. destruct (cell (p_heads p) h) as [[|e l]|], (body_of p b) as [|x y]; reflexivity.
  - destruct (make_last (with_response true code [] (with_version 2 new_sip)) None h b p) as (g & H1 & H2 & H3 & H4 & H5 & H6 & H7). rewrite (text_view _ _ _ _ H1). f_equal. unfold own_text.
    f_equal. f_equal. unfold view. rewrite H2, H3, H4, H6, H7, H5. unfold make_response. destruct (cell (p_heads p) h) as [[|e l]|], (body_of p b) as [|x y]; reflexivity.
Qed.
Print Assumptions C138_as_if_their_own.
Lemma nth_ext_some {A} : forall (s t : list A), (forall i, nth_error s i = nth_error t i) -> s = t.
Proof. induction s as [|x s IH]; intros [|y t] H; [reflexivity|discriminate (H 0%nat)|discriminate (H 0%nat)|]. pose proof (H 0%nat) as E. injection E as ->. f_equal. apply IH. intros i. exact (H (S i)). Qed.
Lemma nth_skipn {A} : forall n (l : list A) k, nth_error (skipn n l) k = nth_error l (n + k).
Proof. induction n as [|n IH]; intros [|x l] k; try reflexivity; [destruct k; reflexivity|apply IH]. Qed.
(** A message's text is that of its contents with everything to itself, at any time; SetHeader and SetBody replace the map and
    the body, and what is set on the map or written to the body afterwards is in the message. *)
Theorem C138_changes_seen : forall p i g order, nth_error (p_msgs p) i = Some g ->
  text order i p = own_text order (view p g) /\
  (forall h, text order i (run [PutHeader i h] p) = own_text order (with_headers (cell (p_heads p) h) (view p g))) /\
  (forall b, text order i (run [PutBody i b] p) = own_text order (set_body (body_of p b) (view p g))) /\
  (forall h m name v, g_head g = Some h -> nth_error (p_heads p) h = Some m ->
     text order i (run [SetFirst h name v] p) = own_text order (with_headers (Some (mset (to_lower name) [v] m)) (view p g))) /\
  (forall b old x new, g_body g = Some b -> nth_error (p_bodies p) b = Some old -> length new = length old ->
     (forall k, (k < length old)%nat -> nth_error new k = if (k <? length x)%nat then nth_error x k else nth_error old k) ->
     text order i (run [WriteBody b x] p) = own_text order (set_body new (view p g))).
Proof.
  intros p i g order Hg. assert (Hi : (i < length (p_msgs p))%nat) by (apply nth_error_Some; congruence). split; [apply text_view, Hg|]. cbn [run step fst]. rewrite Hg. split; [|split; [|split]].
  - intros h. erewrite text_view by (cbn [p_msgs]; apply store_same, Hi). reflexivity.
  - intros b. erewrite text_view by (cbn [p_msgs]; apply store_same, Hi). reflexivity.
  - intros h m name v Eh Em. rewrite Em. erewrite text_view by exact Hg. unfold view. cbn [p_heads p_reqs p_bodies]. rewrite Eh. cbn [cell]. rewrite store_same by (apply nth_error_Some; congruence). reflexivity.
  - intros b old x new Eb Eo HL HN. rewrite Eo. erewrite text_view by exact Hg. unfold view. cbn [p_heads p_reqs p_bodies]. rewrite Eb. cbn [cell]. rewrite store_same by (apply nth_error_Some; congruence).
    replace (firstn (length old) x ++ skipn (length x) old) with new; [reflexivity|]. apply nth_ext_some. intros k. destruct (Nat.lt_ge_cases k (length old)) as [L|L].
    + rewrite HN by exact L. destruct (Nat.ltb_spec k (length x)) as [L2|L2].
      * rewrite nth_error_app1 by (rewrite firstn_length; lia). rewrite <- (firstn_skipn (length old) x) at 1. rewrite nth_error_app1 by (rewrite firstn_length; lia). reflexivity.
      * rewrite firstn_all2 by lia. rewrite nth_error_app2 by lia. rewrite nth_skipn. f_equal. lia.
    + transitivity (@None Z); [apply nth_error_None; lia|symmetry; apply nth_error_None]. rewrite app_length, firstn_length, skipn_length. lia.
Qed.
Print Assumptions C138_changes_seen.
Example C138_changes_example : exists g, nth_error (p_msgs (run [NewHeader; NewBody (str "hello"); MakeResp 200 None None; PutHeader 0 (Some 0%nat); PutBody 0 (Some 0%nat)] no_pool)) 0 = Some g /\
  g_head g = Some 0%nat /\ g_body g = Some 0%nat.
Proof. eexists. split; [reflexivity|]. split; reflexivity. Qed.
(** A request and its response made from one map, each serialized between the other's calls. *)
Definition ex_before : list op :=
  [NewHeader; SetFirst 0 (str "To") (str "<sip:a@b>"); NewReq (mkReq (str "sip") (str "a") (str "b") [] [] []); NewBody (str "hello");
   MakeReq 1 (Some 0%nat) (Some 0%nat) (Some 0%nat); MakeResp 200 (Some 0%nat) None].
Definition ex_after : list op := [ToBytes (fun m => m) 1; ToBytes (@rev _) 0; NewHeader; SetFirst 1 (str "X") (str "y"); ToBytes (fun m => m) 1].
Example C138_example : legal ex_before no_pool /\
  (exists g, nth_error (p_msgs (run ex_before no_pool)) 0 = Some g /\ Forall (leaves 0 g) ex_after) /\
  text (fun m => m) 0 (run (ex_before ++ ex_after) no_pool) = Some (Ok (str "INVITE sip:a@b SIP/2.0" ++ [13; 10] ++ str "to: <sip:a@b>" ++ [13; 10] ++ str "content-length: 5" ++ [13; 10; 13; 10] ++ str "hello")) /\
  nth_error (p_heads (run (ex_before ++ ex_after) no_pool)) 0 = Some [(str "to", [str "<sip:a@b>"]); (str "content-length", [str "0"])].
Proof.
  split; [cbn; repeat split; lia|]. split.
  - eexists. split; [reflexivity|]. repeat constructor. discriminate.
  - split; vm_compute; reflexivity.
Qed.

(** ** C139: headers set on the map after it was given to MakeRequest or MakeResponse *)
(** Refuted: if the map was empty they are lost, for every name and value and any number of them. *)
Theorem C139_later_headers_refuted : forall order o p h sets,
  (exists m r b, o = MakeReq m r (Some h) b) \/ (exists code b, o = MakeResp code (Some h) b) ->
  legal_op o p -> nth_error (p_heads p) h = Some [] -> Forall (fun s => exists name v, s = SetFirst h name v) sets ->
  text order (length (p_msgs p)) (run sets (fst (step o p))) = text order (length (p_msgs p)) (fst (step o p)).
Proof.
  intros order o p h sets Ho HL Hh Hs.
  assert (M : forall own r b, has (p_reqs p) r -> has (p_heads p) (Some h) -> has (p_bodies p) b ->
    text order (length (p_msgs p)) (run sets (make own r (Some h) b p)) = text order (length (p_msgs p)) (make own r (Some h) b p)).
  { intros own r b H1 H2 H3. unfold make. cbn [cell]. rewrite Hh.
    set (g := mkMsg own (Some (length (p_heads p))) r (match cell (p_bodies p) b with Some (_ :: _) => b | _ => None end)).
    set (q := mkPool _ _ _ _). assert (Hi : nth_error (p_msgs q) (length (p_msgs p)) = Some g) by (cbn [p_msgs q]; rewrite nth_error_app2, PeanoNat.Nat.sub_diag by lia; reflexivity).
    assert (P : placed g q).
    { split; [|split]; cbn [g q g_head g_req g_body p_heads p_reqs p_bodies]; [cbn [has]; rewrite app_length; cbn [length]; lia|exact H1|]. destruct (cell (p_bodies p) b) as [[|? ?]|]; cbn; auto. }
    assert (L : Forall (leaves (length (p_msgs p)) g) sets).
    { eapply Forall_impl; [|exact Hs]. intros s (n & v & ->). cbn. cbn [has] in H2. intros E. injection E as E. lia. }
    destruct (run_kept sets q _ g Hi P L) as (R1 & _ & K). eapply text_kept; eassumption. }
  destruct Ho as [(m & r & b & ->)|(code & b & ->)]; cbn [step fst legal_op] in *; apply M; first [exact I|tauto].
Qed.
Print Assumptions C139_later_headers_refuted.
(** Proved: with a map that is not empty, what is set later is in the message, and in its text. *)
Theorem C139_later_headers_partial : forall order m r h b p e l name v, legal_op (MakeReq m r (Some h) b) p -> nth_error (p_heads p) h = Some (e :: l) ->
  text order (length (p_msgs p)) (run [SetFirst h name v] (fst (step (MakeReq m r (Some h) b) p)))
  = own_text order (make_request m (cell (p_reqs p) r) (Some (mset (to_lower name) [v] (e :: l))) (body_of p b)) /\
  forall code, text order (length (p_msgs p)) (run [SetFirst h name v] (fst (step (MakeResp code (Some h) b) p)))
  = own_text order (make_response code (Some (mset (to_lower name) [v] (e :: l))) (body_of p b)).
Proof.
  intros order m r h b p e l name v (L1 & L2 & L3) Hh.
  assert (N : forall (l : list msg) x, nth_error (l ++ [x]) (length l) = Some x) by (intros l' x; rewrite nth_error_app2, PeanoNat.Nat.sub_diag by lia; reflexivity).
  assert (Ne : exists e' l', mset (to_lower name) [v] (e :: l) = e' :: l') by (destruct e as [k w]; cbn [mset]; destruct (bytes_eqb (to_lower name) k); eauto). destruct Ne as (e' & l' & Ne).
  cbn [step fst run]. unfold make. cbn [cell]. rewrite Hh. cbn [p_heads p_reqs p_bodies p_msgs]. rewrite Hh. split; [|intros code].
  - erewrite text_view by (cbn [p_msgs]; apply N). unfold view. cbn [g_own g_head g_req g_body p_heads p_reqs p_bodies cell]. rewrite store_same by exact L2. rewrite Ne.
    unfold own_text, make_request, body_of. destruct (cell (p_bodies p) b) as [[|x y]|] eqn:Eb; cbn [cell]; rewrite ?Eb; reflexivity.
  - erewrite text_view by (cbn [p_msgs]; apply N). unfold view. cbn [g_own g_head g_req g_body p_heads p_reqs p_bodies cell]. rewrite store_same by exact L2. rewrite Ne.
    unfold own_text, make_response, body_of. destruct (cell (p_bodies p) b) as [[|x y]|] eqn:Eb; cbn [cell]; rewrite ?Eb; reflexivity.
Qed.
Print Assumptions C139_later_headers_partial.
Example C139_example : legal_op (MakeResp 200 (Some 0%nat) None) (run [NewHeader] no_pool) /\ nth_error (p_heads (run [NewHeader] no_pool)) 0 = Some [] /\
  legal_op (MakeReq 1 None (Some 0%nat) None) (run [NewHeader; SetFirst 0 (str "To") (str "x")] no_pool) /\
  exists e l, nth_error (p_heads (run [NewHeader; SetFirst 0 (str "To") (str "x")] no_pool)) 0 = Some (e :: l).
Proof. split; [cbn; lia|]. split; [reflexivity|]. split; [cbn; lia|]. eexists. eexists. reflexivity. Qed.
