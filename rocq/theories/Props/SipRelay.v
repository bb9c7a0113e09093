(** C213: what becomes of a message that is passed on, hop by hop, over connections. *)
From Coq Require Import String Permutation.
From Verif Require Import Base.Go Base.GoFacts Base.IO Base.Text Model.Sip Spec.Sip Spec.SipHops Spec.SipRelay Proofs.Text Proofs.Sip Proofs.SipMsg Proofs.SipRead Proofs.SipText Proofs.SipParse Proofs.SipMore Proofs.SipHeaders Proofs.SipFields Props.Sip Props.SipMsg Props.SipHops.
Import ListNotations. Local Open Scope list_scope. Local Open Scope Z_scope.

Lemma crlfs_len k : len (crlfs k) = 2 * Z.of_nat k.
Proof. induction k as [|k IH]; [reflexivity|]. cbn [crlfs]. rewrite len_app, IH. change (len [13; 10]) with 2. lia. Qed.
Lemma body_same p : body_over 0 p p.
Proof. split; [auto|]. split; [auto|]. intros _. exists []. split; [apply app_nil_r|]. unfold len. cbn [length]. lia. Qed.
(** One more hop. *)
Lemma body_next k p q y d r : body_over k p q -> (q = [] -> y = []) -> (q <> [] -> y = 13 :: 10 :: d /\ q = d ++ r /\ len q - 2 <= len d /\ (len q <= 2 -> d = [])) ->
  body_over (S k) p y.
Proof.
  intros (B0 & B1 & B2) N S. split; [auto|]. split.
  - intros L. specialize (B1 L). assert (Q : q <> [] /\ len q <= 2).
    { destruct k; subst q; [|split; [discriminate|vm_compute; congruence]]. split; [|lia]. intros ->. change (len (@nil Z)) with 0 in L. lia. }
    destruct Q as [Q1 Q2]. destruct (S Q1) as (-> & _ & _ & D). now rewrite D.
  - intros L. destruct (B2 L) as (l & E & Hl). assert (LE := f_equal (@len Z) E). rewrite !len_app, crlfs_len in LE.
    assert (Q : q <> []) by (intros ->; change (len (@nil Z)) with 0 in LE; lia). destruct (S Q) as (-> & -> & D & _). rewrite len_app in D.
    exists (r ++ l). split; [|rewrite len_app; lia]. cbn [crlfs app]. rewrite <- E, <- app_assoc. reflexivity.
Qed.
Lemma hop_over_inv s y : plain_message s -> hop_over s y -> exists order, iteration order /\ parsed_as s y order /\ plain_message y /\
  (s_payload s = [] -> s_payload y = []) /\
  (s_payload s <> [] -> exists d r, s_payload y = 13 :: 10 :: d /\ s_payload s = d ++ r /\ len (s_payload s) - 2 <= len d /\ (len (s_payload s) <= 2 -> d = [])).
Proof.
  intros Hm (order & s1 & text & blocks & size & b & Ho & Hb & Hc & Hz & Hf & Hp & HL).
  destruct (sip_parse_message order s text s1 blocks size [] Hm Ho Hf Hz Hb) as (b' & x & E & P & P0 & P1); [now rewrite app_nil_r|auto|].
  unfold reader in Hp. assert (x = y) by congruence. subst y. exists order. split; [exact Ho|]. split; [exact P|].
  assert (G : s_payload s <> [] -> exists d r, s_payload x = 13 :: 10 :: d /\ s_payload s = d ++ r /\ len (s_payload s) - 2 <= len d /\ (len (s_payload s) <= 2 -> d = [])).
  { intros N. destruct (P1 N) as (d & A1 & A2 & A3 & A4 & _). rewrite app_nil_r in A2. eauto 8. }
  split; [|split; [intros N; now destruct (P0 N)|exact G]].
  now apply (parsed_plain order s).
Qed.
Lemma hops_plain k s x : plain_message s -> hops_over k s x -> plain_message x.
Proof. intros Hm H. induction H as [|k s x y H IH H2]; [exact Hm|]. now destruct (hop_over_inv _ _ (IH Hm) H2) as (? & _ & _ & Q & _). Qed.
Lemma hops_body k s x : plain_message s -> hops_over k s x -> body_over k (s_payload s) (s_payload x).
Proof.
  intros Hm H. induction H as [|k s x y H IH H2]; [apply body_same|].
  destruct (hop_over_inv _ _ (hops_plain _ _ _ Hm H) H2) as (o & _ & _ & _ & N & S). destruct (s_payload x) as [|a p] eqn:E.
  - eapply (body_next k _ [] _ [] []); [apply IH, Hm|auto|congruence].
  - destruct S as (d & r & S); [congruence|]. eapply (body_next k _ (a :: p) _ d r); [apply IH, Hm|congruence|auto].
Qed.

(** Any number of hops, however the texts are cut into blocks and whatever the sizes of the buffers: the message is read as the original
    would be if its body were the one sent at the last hop, and of both bodies [body_over] says what they may be. *)
Theorem C213_passed_on : forall k s x, plain_message s -> hops_over (S k) s x ->
  exists last, body_over k (s_payload s) last /\ same_message (with_layer (s_contents s) last s) x /\ body_over (S k) (s_payload s) (s_payload x).
Proof.
  intros k s x Hm H. enough (G : exists last, body_over k (s_payload s) last /\ (forall n, to_lower n <> cl -> get_first (s_headers x) n = get_first (s_headers s) n) /\
    same_message (with_layer (s_contents s) last s) x) by (destruct G as (q & G1 & _ & G2); exists q; split; [exact G1|]; split; [exact G2|]; now apply hops_body).
  revert x H. induction k as [|k IH]; intros y H; inversion H as [|k' s' x y' H1 H2]; subst; clear H.
  - inversion H1; subst. destruct (hop_over_inv _ _ Hm H2) as (order & Ho & P & Q & _). exists (s_payload x). split; [apply body_same|]. split; [now apply (first_kept order)|].
    exact (parsed_same order _ _ Hm Ho P).
  - assert (Mx := hops_plain _ _ _ Hm H1). destruct (IH _ H1) as (q & _ & F & S). destruct (hop_over_inv _ _ Mx H2) as (order & Ho & P & Q & _).
    exists (s_payload x). split; [now apply hops_body|].
    pose proof (first_kept order _ _ Mx Ho P) as F2. split; [intros n Hn; rewrite F2, F by assumption; reflexivity|].
    pose proof (parsed_same order _ _ Mx Ho P) as (T1 & T2 & T3 & T4 & T5 & T6 & T7 & T8 & T9). destruct S as (S1 & S2 & S3 & S4 & S5 & S6 & S7 & S8 & S9).
    cbn [with_layer s_headers s_version s_isresp s_code s_method s_request s_payload] in *.
    split; [|split; [|split; [|split]]]; cbn [with_layer s_headers s_version s_isresp s_code s_method s_request s_payload].
    + intros n. rewrite T1. destruct (bytes_eqb (to_lower n) (str "content-length")) eqn:D; [reflexivity|]. rewrite S1, D. reflexivity.
    + rewrite T2, S2. unfold shown_version. destruct (s_version s =? 1); reflexivity.
    + rewrite T3, S3. reflexivity.
    + rewrite S3 in T4. destruct (s_isresp s).
      * destruct T4 as [-> ->]. destruct S4 as [-> _]. auto.
      * destruct T4 as [-> (r & r' & R1 & R2 & R3 & R4 & R5 & R6 & R7)]. destruct S4 as [-> (q0 & q' & Q1 & Q2 & Q3 & Q4 & Q5 & Q6 & Q7)]. split; [reflexivity|].
        rewrite Q2 in R1. injection R1 as <-. exists q0, r'. split; [exact Q1|]. split; [exact R2|]. split; [congruence|]. split; [congruence|]. split; [congruence|]. split; [congruence|].
        intros a. rewrite R7. apply Q7.
    + repeat rewrite F in T5, T6, T7, T8, T9 by discriminate. auto.
Qed.
(** Every hop succeeds: Bytes gives a text, and Parse accepts it however it is delivered, if its lines fit the buffer. *)
Theorem C213_next_hop : forall k s x order, plain_message s -> hops_over k s x -> len (s_payload x) + 2 <= 9223372036854775807 -> iteration order ->
  exists x1 text, sip_bytes order x = Ok (x1, text) /\ (forall blocks size, concat blocks = text -> 128 <= size -> fits size x ->
    exists b y, sip_parse (reader blocks size) new_sip = (b, (y, Ok tt)) /\ hops_over (S k) s y).
Proof.
  intros k s x order Hm H HL Ho. assert (M := hops_plain _ _ _ Hm H).
  destruct (sip_bytes_text order x M Ho) as [x1 [E _]]. eexists. eexists. split; [exact E|]. intros blocks size Hc Hz Hf.
  destruct (sip_parse_message order x _ x1 blocks size [] M Ho Hf Hz E) as (b & y & Ey & _ & P0 & P1); [now rewrite app_nil_r|auto|].
  exists b, y. split; [exact Ey|]. econstructor; [exact H|]. exists order, x1. eexists. exists blocks, size, b. split; [exact Ho|]. split; [exact E|]. split; [exact Hc|]. split; [exact Hz|].
  split; [exact Hf|]. split; [exact Ey|]. destruct (s_payload x) as [|a p].
  - destruct (P0 eq_refl) as [-> _]. vm_compute. congruence.
  - destruct P1 as (d & A1 & A2 & _); [congruence|]. rewrite A1, !len_cons. rewrite app_nil_r in A2. apply (f_equal (@len Z)) in A2. rewrite len_app in A2. pose proof (len_nonneg (bf_rest b)). lia.
Qed.
Lemma fits_some s n : plain_message s -> exists size, n <= size /\ 128 <= size /\ fits size s.
Proof.
  intros Hm. destruct (first_text_ok s Hm) as [_ [_ T]]. destruct Hm as [_ [[m [Em _]] _]].
  assert (G : exists M, forall k v, In (k, [v]) m -> len k + len v + 4 <= M).
  { clear Em. induction m as [|[k vs] m [M IH]]; [exists 0; intros k v []|]. exists (Z.max M (len k + len (hd [] vs) + 4)). intros k' v' [I|I]; [|specialize (IH _ _ I); lia].
    injection I as -> ->. cbn [hd]. lia. }
  destruct G as [M G]. set (F := len (first_text s ++ [13; 10])) in *. exists (Z.max (Z.max n 128) (Z.max M F)). split; [lia|]. split; [lia|]. split.
  - intros l El. rewrite T in El. injection El as <-. fold F. pose proof (len_nonneg (first_text s ++ [13; 10])). lia.
  - intros k v m' Em' I. assert (m' = m) by congruence. subst m'. specialize (G _ _ I). lia.
Qed.
Lemma hop_to s d r : plain_message s -> 2 < len (s_payload s) <= 4096 -> s_payload s = d ++ r -> len r <= 2 -> exists y, hop_over s y /\ s_payload y = 13 :: 10 :: d.
Proof.
  intros Hm HL E Hr. assert (I : iteration (fun m => m)) by (intros m; apply Permutation_refl).
  destruct (sip_bytes_text _ s Hm I) as [s1 [Hb _]]. assert (N : blank_and_body (s_payload s) = [13; 10] ++ s_payload s) by (destruct (s_payload s); [change (len (@nil Z)) with 0 in HL; lia|reflexivity]).
  rewrite N, app_assoc in Hb. set (hd := _ ++ [13; 10]) in Hb. destruct (fits_some s (len (hd ++ d)) Hm) as (size & Z1 & Z2 & Hf).
  assert (LE := f_equal (@len Z) E). rewrite len_app in LE. pose proof (len_nonneg r).
  destruct (sip_parse_block _ s _ s1 hd d [r] size Hm I Hb eq_refl) as (x & Px & _ & Q); try lia.
  exists x. split; [|exact Q]. exists (fun m => m), s1, (hd ++ s_payload s), [hd ++ d; r], size. eexists. split; [exact I|]. split; [exact Hb|].
  split; [cbn [concat]; rewrite E, app_nil_r, <- app_assoc; reflexivity|]. split; [exact Z2|]. split; [exact Hf|]. split; [exact Px|]. rewrite Q, !len_cons. lia.
Qed.
(** And every such body does arrive, over some connections, as long as the body is at most 4096 bytes by then. *)
Theorem C213_every_body : forall k s got lost, plain_message s -> 2 < len (s_payload s) -> len (s_payload s) + 2 * Z.of_nat k <= 4096 ->
  got ++ lost = crlfs k ++ s_payload s -> len lost <= 2 * Z.of_nat k -> exists x, hops_over k s x /\ s_payload x = got.
Proof.
  induction k as [|k IH]; intros s got lost Hm H2 HL E Hl.
  - destruct lost as [|a l]; [|rewrite len_cons in Hl; pose proof (len_nonneg l); lia]. rewrite app_nil_r in E. subst. exists s. split; [constructor|reflexivity].
  - assert (LE := f_equal (@len Z) E). rewrite !len_app, crlfs_len in LE. cbn [crlfs app] in E. destruct got as [|a [|b d]]; try (unfold len at 1 in LE; cbn [length] in LE; lia).
    injection E as -> -> E. rewrite !len_cons in LE.
    set (n := Z.to_nat (Z.min 2 (len lost))). assert (S := firstn_skipn n lost).
    assert (L1 : len (firstn n lost) <= 2) by (unfold len; rewrite firstn_length; lia).
    assert (L2 : len (skipn n lost) <= 2 * Z.of_nat k) by (unfold len in *; rewrite skipn_length; lia).
    destruct (IH s (d ++ firstn n lost) (skipn n lost) Hm H2 ltac:(lia)) as (x & Hx & Px); [rewrite <- app_assoc, S; exact E|exact L2|].
    assert (L3 : len (d ++ firstn n lost) + len (skipn n lost) = len d + len lost) by (rewrite <- S at 3; rewrite !len_app; lia).
    destruct (hop_to x d (firstn n lost) (hops_plain _ _ _ Hm Hx)) as (y & Hy & Py); [rewrite Px; pose proof (len_nonneg (skipn n lost)); lia|exact Px|exact L1|].
    exists y. split; [econstructor; eauto|exact Py].
Qed.
(** The body of the example of C190: after three hops it can be that, or anything that lacks up to six bytes of it at the end. *)
Example C213_example : plain_message (ex_message (str "v=0")) /\ (exists x, hops_over 3 (ex_message (str "v=0")) x /\ s_payload x = [13; 10; 13; 10; 13; 10] ++ str "v=0") /\
  (exists x, hops_over 3 (ex_message (str "v=0")) x /\ s_payload x = [13; 10; 13]).
Proof.
  assert (M : plain_message (ex_message (str "v=0"))) by (apply ex_message_plain; vm_compute; discriminate).
  split; [exact M|]. split.
  - apply (C213_every_body 3 _ _ [] M); [vm_compute; reflexivity|vm_compute; congruence|vm_compute; reflexivity|vm_compute; congruence].
  - apply (C213_every_body 3 _ _ ([10; 13; 10] ++ str "v=0") M); [vm_compute; reflexivity|vm_compute; congruence|vm_compute; reflexivity|vm_compute; congruence].
Qed.
Print Assumptions C213_passed_on.
Print Assumptions C213_next_hop.
Print Assumptions C213_every_body.
