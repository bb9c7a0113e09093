(** C190: what becomes of a message that is passed on, hop by hop. *)
From Coq Require Import String Permutation.
From Verif Require Import Base.Go Base.GoFacts Base.IO Base.Text Model.Sip Spec.Sip Spec.SipHops Proofs.Text Proofs.Sip Proofs.SipMsg Proofs.SipRead Proofs.SipText Proofs.SipParse Proofs.SipMore Proofs.SipHeaders Proofs.SipFields Props.Sip Props.SipMsg.
Import ListNotations. Local Open Scope list_scope. Local Open Scope Z_scope.
Local Ltac Zify.zify_post_hook ::= Z.div_mod_to_equations.

Lemma line_in l ls : In l ls -> len l + 2 <= len (with_crlf ls).
Proof.
  unfold with_crlf. induction ls as [|a ls IH]; [intros []|]. cbn [flat_map]. rewrite !len_app. change (len [13; 10]) with 2.
  pose proof (len_nonneg a). pose proof (len_nonneg (flat_map (fun l => l ++ [13; 10]) ls)). intros [-> |H1]; [lia|]. specialize (IH H1). lia.
Qed.
(** One hop, whatever the order. *)
Lemma one_hop order s s1 text : plain_message s -> iteration order -> sip_bytes order s = Ok (s1, text) -> len text <= 4096 ->
  exists x, sip_parse_bytes text new_sip = (x, Ok tt) /\ parsed_as s x order /\ s_payload x = body_after 1 (s_payload s).
Proof.
  intros Hm Ho Hb HL. destruct (sip_bytes_text order s Hm Ho) as [s2 [Hb2 [Hw _]]].
  assert (Ht : with_crlf (msg_lines order s) ++ blank_and_body (s_payload s) = text) by (rewrite Hb2 in Hb; apply (f_equal (fun r => match r with Ok y => snd y | _ => [] end)) in Hb; exact Hb).
  destruct (Z_lt_le_dec 2 (len (s_payload s))) as [L|L].
  - assert (Hbb : blank_and_body (s_payload s) = [13; 10] ++ s_payload s) by (destruct (s_payload s); [change (len (@nil Z)) with 0 in L; lia|reflexivity]).
    assert (H0 : text = (with_crlf (msg_lines order s) ++ [13; 10]) ++ s_payload s) by (rewrite <- Ht, Hbb, <- app_assoc; reflexivity).
    destruct (sip_parse_block order s text s1 (with_crlf (msg_lines order s) ++ [13; 10]) (s_payload s) [] 4096 Hm Ho Hb H0 L) as [x [E [P Q]]].
    + rewrite <- H0. exact HL.
    + apply (f_equal (@len Z)) in H0. rewrite len_app in H0. pose proof (len_nonneg (with_crlf (msg_lines order s) ++ [13; 10])). lia.
    + lia.
    + exists x. split; [|split; [exact P|]].
      * unfold sip_parse_bytes, new_reader. rewrite H0, E. reflexivity.
      * rewrite Q. destruct (s_payload s) as [|a [|b [|c p]]]; try (unfold len in L; cbn [length] in L; lia). reflexivity.
  - assert (Hok : Forall (line_ok 4096) (msg_lines order s)).
    { destruct (first_text_ok s Hm) as [T1 [T2 _]].
      assert (Hls : Forall (fun l => l <> [] /\ without [13; 10] l) (msg_lines order s)).
      { constructor; [auto|]. apply Forall_map. destruct Hw as [_ Hw]. eapply Forall_impl; [|exact Hw]. intros p. apply hline_ok. }
      rewrite Forall_forall in *. intros l Hl. destruct (Hls l Hl) as [A B]. split; [exact A|]. split; [exact B|]. pose proof (line_in _ _ Hl) as C.
      apply (f_equal (@len Z)) in Ht. rewrite len_app in Ht. pose proof (len_nonneg (blank_and_body (s_payload s))). lia. }
    destruct (sip_parse_lines order s text s1 [text] 4096 [] Hm Ho Hok ltac:(lia) Hb eq_refl (fun _ => eq_refl)) as (b & x & E & P & P0 & P1).
    exists x. split; [unfold sip_parse_bytes, new_reader; rewrite E; reflexivity|]. split; [exact P|].
    destruct (s_payload s) as [|a [|c [|d p]]] eqn:Ep.
    + apply P0; reflexivity.
    + destruct P1 as (d & -> & _ & _ & D & _); [discriminate|]. rewrite (D L). reflexivity.
    + destruct P1 as (d & -> & _ & _ & D & _); [discriminate|]. rewrite (D L). reflexivity.
    + exfalso. unfold len in L. cbn [length] in L. lia.
Qed.
(** What has been read can be passed on. *)
Lemma parsed_plain order s x : plain_message s -> iteration order -> parsed_as s x order -> len (s_payload x) <= 9223372036854775807 -> plain_message x.
Proof.
  intros Hm Ho P HL. destruct (sip_bytes_text order s Hm Ho) as [_ [_ [Hw Hl]]]. destruct Hm as [Hf [[m [Em Hp]] [Ha Hlen]]]. destruct P as (P1 & P2 & P3 & P4 & P5).
  split; [|split; [|split; [|exact HL]]].
  - rewrite P3. destruct (s_isresp s); [destruct P4 as [-> _]; exact Hf|]. destruct P4 as [-> [r [E1 E2]]]. destruct Hf as [F1 [r' [F2 F3]]]. split; [exact F1|].
    exists (request_stored r). split; [exact E2|]. rewrite E1 in F2. injection F2 as <-. exact F3.
  - exists (written_headers order s). split; [exact P1|exact Hw].
  - assert (G : forall n, to_lower n <> cl -> get_first (s_headers x) n = get_first (s_headers s) n).
    { intros n Hn. rewrite P1, Em, !get_first_plain by assumption. rewrite Hl, Em. assert (Hd : bytes_eqb (to_lower n) cl = false) by (destruct (bytes_eqb (to_lower n) cl) eqn:D; [apply bytes_eqb_eq in D; contradiction|reflexivity]).
      rewrite Hd. reflexivity. }
    destruct Ha as [A1 A2]. split.
    + intros n Hn. rewrite G; [auto|]. destruct Hn as [<-|[<-|[<-|[]]]]; discriminate.
    + rewrite G; [exact A2|discriminate].
Qed.
Lemma first_kept order s x : plain_message s -> iteration order -> parsed_as s x order -> forall n, to_lower n <> cl -> get_first (s_headers x) n = get_first (s_headers s) n.
Proof.
  intros Hm Ho P n Hn. destruct (sip_bytes_text order s Hm Ho) as [_ [_ [Hw Hl]]]. destruct Hm as [Hf [[m [Em Hp]] _]]. destruct P as (P1 & _).
  rewrite P1, Em, !get_first_plain by assumption. rewrite Hl, Em. assert (Hd : bytes_eqb (to_lower n) cl = false) by (destruct (bytes_eqb (to_lower n) cl) eqn:D; [apply bytes_eqb_eq in D; contradiction|reflexivity]).
  rewrite Hd. reflexivity.
Qed.
Lemma body_step k p : body_after 1 (body_after k p) = body_after (S k) p.
Proof.
  destruct k as [|k]; [reflexivity|]. destruct p as [|a [|b [|c p]]]; try reflexivity.
  assert (E : exists x y z q, body_after (S k) (a :: b :: c :: p) = x :: y :: z :: q).
  { cbn [body_after crlfs app]. destruct k; cbn [crlfs app]; eauto 10. }
  destruct E as (x & y & z & q & E). rewrite E. cbn [body_after crlfs app]. rewrite <- E. reflexivity.
Qed.
Lemma hop_inv s y : plain_message s -> hop s y -> exists order, iteration order /\ parsed_as s y order /\ plain_message y /\ s_payload y = body_after 1 (s_payload s).
Proof.
  intros Hm (order & s1 & text & Ho & Hb & HL & Hp). destruct (one_hop order s s1 text Hm Ho Hb HL) as (x & Hx & P & B). rewrite Hx in Hp. injection Hp as <-.
  exists order. split; [exact Ho|]. split; [exact P|]. split; [|exact B]. apply (parsed_plain order s); auto. rewrite B.
  destruct (sip_bytes_text order s Hm Ho) as [s2 [Hb2 _]]. rewrite Hb2 in Hb. apply (f_equal (fun r => match r with Ok y => len (snd y) | _ => 0 end)) in Hb. cbn [snd] in Hb. rewrite len_app in Hb.
  pose proof (len_nonneg (with_crlf (first_text s :: map hline (written_headers order s)))).
  destruct (s_payload s) as [|a [|b [|c p]]]; cbn [body_after crlfs app blank_and_body] in *; rewrite ?len_cons in *; change (len (@nil Z)) with 0 in *; lia.
Qed.

(** Any number of hops: the message is read as the original would be if its body were the one sent at the last hop, and the body is
    the one described by [body_after]. *)
Theorem C190_passed_on : forall k s x, plain_message s -> hops (S k) s x ->
  same_message (with_layer (s_contents s) (body_after k (s_payload s)) s) x /\ s_payload x = body_after (S k) (s_payload s).
Proof.
  intros k s x Hm H. enough (G : plain_message x /\ (forall n, to_lower n <> cl -> get_first (s_headers x) n = get_first (s_headers s) n) /\
    same_message (with_layer (s_contents s) (body_after k (s_payload s)) s) x /\ s_payload x = body_after (S k) (s_payload s)) by tauto.
  revert x H. induction k as [|k IH]; intros y H; inversion H as [|k' s' x y' H1 H2]; subst; clear H.
  - inversion H1; subst. destruct (hop_inv _ _ Hm H2) as (order & Ho & P & Q & B). split; [exact Q|]. split; [now apply (first_kept order)|]. split; [|exact B].
    exact (parsed_same order _ _ Hm Ho P).
  - destruct (IH _ H1) as (Mx & F & S & B). destruct (hop_inv _ _ Mx H2) as (order & Ho & P & Q & B2). split; [exact Q|].
    pose proof (first_kept order _ _ Mx Ho P) as F2. split; [intros n Hn; rewrite F2, F by assumption; reflexivity|]. split; [|rewrite B2, B; apply body_step].
    pose proof (parsed_same order _ _ Mx Ho P) as (T1 & T2 & T3 & T4 & T5 & T6 & T7 & T8 & T9). destruct S as (S1 & S2 & S3 & S4 & S5 & S6 & S7 & S8 & S9).
    cbn [with_layer s_headers s_version s_isresp s_code s_method s_request s_payload] in *.
    split; [|split; [|split; [|split]]]; cbn [with_layer s_headers s_version s_isresp s_code s_method s_request s_payload].
    + intros n. rewrite T1. destruct (bytes_eqb (to_lower n) (str "content-length")) eqn:D; [rewrite B; reflexivity|]. rewrite S1, D. reflexivity.
    + rewrite T2, S2. unfold shown_version. destruct (s_version s =? 1); reflexivity.
    + rewrite T3, S3. reflexivity.
    + rewrite S3 in T4. destruct (s_isresp s).
      * destruct T4 as [-> ->]. destruct S4 as [-> _]. auto.
      * destruct T4 as [-> (r & r' & R1 & R2 & R3 & R4 & R5 & R6 & R7)]. destruct S4 as [-> (q & q' & Q1 & Q2 & Q3 & Q4 & Q5 & Q6 & Q7)]. split; [reflexivity|].
        rewrite Q2 in R1. injection R1 as <-. exists q, r'. split; [exact Q1|]. split; [exact R2|]. split; [congruence|]. split; [congruence|]. split; [congruence|]. split; [congruence|].
        intros a. rewrite R7. apply Q7.
    + repeat rewrite F in T5, T6, T7, T8, T9 by discriminate. auto.
Qed.
(** As long as the texts are short, every hop succeeds: Bytes gives a text and ParseBytes accepts it. *)
Theorem C190_next_hop : forall k s x order, plain_message s -> hops k s x -> iteration order ->
  exists x1 text, sip_bytes order x = Ok (x1, text) /\ (len text <= 4096 -> exists y, sip_parse_bytes text new_sip = (y, Ok tt) /\ hops (S k) s y).
Proof.
  intros k s x order Hm H Ho. assert (M : plain_message x).
  { induction H as [|k s x y H IH H2]; [exact Hm|]. now destruct (hop_inv _ _ (IH Hm) H2) as (? & _ & _ & Q & _). }
  destruct (sip_bytes_text order x M Ho) as [x1 [E _]]. eexists. eexists. split; [exact E|]. intros HL. destruct (one_hop order x _ _ M Ho E HL) as (y & Py & _). exists y. split; [exact Py|].
  econstructor; [exact H|]. exists order, x1. eexists. eauto.
Qed.
(** The only bodies that arrive as they were sent are the empty one and CRLF. *)
Theorem C190_bodies_kept : forall k s x, plain_message s -> hops (S k) s x -> (s_payload x = s_payload s <-> s_payload s = [] \/ s_payload s = [13; 10]).
Proof.
  intros k s x Hm H. destruct (C190_passed_on _ _ _ Hm H) as [_ ->]. destruct (s_payload s) as [|a [|b [|c p]]]; cbn [body_after].
  - split; auto.
  - split; [discriminate|]. intros [C|C]; discriminate.
  - split; [intros E; right; now injection E as <- <-|]. intros [C|C]; [discriminate|now injection C as -> ->].
  - split; [|intros [C|C]; discriminate]. intros E. exfalso. apply (f_equal (@len Z)) in E. rewrite len_app in E. cbn [crlfs] in E. rewrite len_app in E. change (len [13; 10]) with 2 in E. pose proof (len_nonneg (crlfs k)). lia.
Qed.
Example C190_example : plain_message (ex_message (str "v=0")) /\ exists x, hops 3 (ex_message (str "v=0")) x /\ s_payload x = [13; 10; 13; 10; 13; 10] ++ str "v=0" /\
  get_header (s_headers x) (str "Content-Length") = [str "7"] /\ get_header (s_headers x) (str "cseq") = [str "1 INVITE"].
Proof.
  split; [apply ex_message_plain; vm_compute; discriminate|].
  assert (I : iteration (@rev _)) by (intros m; apply Permutation_rev).
  eexists. split.
  - assert (R : forall s y s1 text, sip_bytes (@rev _) s = Ok (s1, text) -> (len text <=? 4096) = true -> sip_parse_bytes text new_sip = (y, Ok tt) -> hop s y).
    { intros s y s1 text H1 H2 H3. exists (@rev _), s1, text. split; [exact I|]. split; [exact H1|]. split; [lia|exact H3]. }
    eapply H_more; [eapply H_more; [eapply H_more; [apply H_none|]|]|]; (eapply R; [vm_compute; reflexivity|vm_compute; reflexivity|vm_compute; reflexivity]).
  - vm_compute. auto.
Qed.
Print Assumptions C190_passed_on.
Print Assumptions C190_next_hop.
Print Assumptions C190_bodies_kept.
