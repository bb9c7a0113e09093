(** C196: messages with any number of values per header, written and read back. *)
From Coq Require Import String Permutation.
From Verif Require Import Base.Go Base.GoFacts Base.IO Base.Text Model.Sip Spec.Sip Spec.SipLine Spec.SipAddr Spec.SipWhole Spec.SipMany Proofs.Text Proofs.Sip Proofs.SipMsg
  Proofs.SipRead Proofs.SipText Proofs.SipParse Proofs.SipMore Proofs.SipHeaders Proofs.SipFields Proofs.SipWhole Proofs.SipMany Props.Sip Props.SipMsg Props.SipAddr Props.SipWhole.
Import ListNotations. Local Open Scope list_scope. Local Open Scope Z_scope.

Section C196.
(** A message s, written in some order of the names; l are its headers with Content-Length in this order. The text arrives
    in blocks of any sizes. Its last name has a value, or it has no payload. *)
Context (order : hmap -> hmap) (s s1 : sip) (m1 : hmap) (text : bytes) (blocks : list bytes) (size : Z).
Context (Hm : text_message s) (Ho : iteration order) (Hb : sip_bytes order s = Ok (s1, text)) (H1 : s_headers s1 = Some m1).
Context (Hf : lines_fit size s (order m1)) (Hz : 2 <= size) (Hc : concat blocks = text) (Hl : finished (order m1) \/ s_payload s = []).
Notation l := (order m1).

(** The object it is read into: one value per name received; the payload as in C91. *)
Theorem C196_object : typed (received l) -> values (received l) (str "content-length") <> [] ->
  exists b x, sip_parse (reader blocks size) new_sip = (b, (x, Ok tt)) /\ same_first_line s x /\
    (forall n, get_header (s_headers x) n = values (received l) (to_lower n)) /\
    (exists used, message_of x (received l) used (s_payload x) x) /\
    (s_payload s = [] -> s_payload x = []) /\
    (s_payload s <> [] -> exists d lost, s_payload x = [13; 10] ++ d /\ s_payload s = d ++ lost /\ len lost <= 2).
Proof.
  intros T V. destruct (message_begins _ _ _ _ _ size Hm Ho Hb H1 Hf Hz Hl) as (used & tail & eol & B & E & Ee). destruct (visited _ _ _ _ _ Hm Ho Hb H1) as (_ & Th & _ & _).
  pose proof (message_read s l Hm Th) as R. pose proof (proj1 (length_numeral _ _ _ _ _ Hm Ho Hb H1) V) as N. rewrite <- Hc in B.
  destruct (C156_object blocks size new_sip ltac:(lia) eq_refl _ _ _ _ _ _ _ _ B E R T N) as (b & x & d & P & M & D1 & D2 & D3). exists b, x. split; [exact P|].
  pose proof M as M0. destruct M as ((V1 & V2 & V3 & V4 & V5 & V6) & (m & Em & Gm) & _ & _ & _ & _ & _ & _ & Pl).
  split; [|split; [|split; [|split]]].
  - unfold same_first_line. rewrite V1, V4, V2, V3, V5, V6. unfold after_first. destruct Hm as (H0 & _). destruct (s_isresp s) eqn:Er; cbn; rewrite ?Er; [repeat split|].
    split; [reflexivity|]. split; [reflexivity|]. split; [reflexivity|]. destruct H0 as (_ & r & Hr & _). rewrite Hr. exists r, (request_stored r). split; [reflexivity|]. split; [reflexivity|]. repeat split; reflexivity.
  - intros n. rewrite Em. rewrite get_header_vals; [|intros k; rewrite Gm; destruct (values (received l) k); discriminate]. unfold hvals, hlook. rewrite Gm. destruct (values (received l) (to_lower n)); reflexivity.
  - exists used. destruct M0 as (_ & M1). split; [repeat split|]. rewrite <- Pl in M1. exact M1.
  - intros E0. rewrite E0 in *. rewrite Pl, Ee. symmetry in D1. apply app_eq_nil in D1 as [-> _]. reflexivity.
  - intros E0. exists d, (bf_rest b). assert (Ee' : eol = [13; 10]) by (rewrite Ee; destruct (s_payload s); [congruence|reflexivity]). rewrite Ee' in *. split; [exact Pl|]. split; [exact D1|].
    apply (f_equal (@len Z)) in D1. rewrite len_app in D1. change (len [13; 10]) with 2 in D3. destruct D3 as [->|D3]; [change (len (@nil Z)) with 0; lia|lia].
Qed.
(** It is accepted just if the addresses received are none that panic (C84) and Content-Length is received. *)
Theorem C196_accepted : (exists b x, sip_parse (reader blocks size) new_sip = (b, (x, Ok tt))) <-> typed (received l) /\ values (received l) (str "content-length") <> [].
Proof.
  split; [|intros [T V]; destruct (C196_object T V) as (b & x & P & _); eauto].
  intros (b & x & P). destruct (message_begins _ _ _ _ _ size Hm Ho Hb H1 Hf Hz Hl) as (used & tail & eol & B & E & Ee). destruct (visited _ _ _ _ _ Hm Ho Hb H1) as (_ & Th & _ & _).
  pose proof (message_read s l Hm Th) as R. rewrite <- Hc in B. destruct (typed_dec (received l)) as [T|T].
  - split; [exact T|]. intros V. pose proof (proj2 (length_numeral _ _ _ _ _ Hm Ho Hb H1) V) as N.
    destruct (proj2 (C156_refused blocks size new_sip ltac:(lia) eq_refl)) as (b' & x' & e & P'); [|congruence]. right. right. do 7 eexists. split; [exact B|]. split; [exact E|]. split; [exact R|]. split; [exact T|exact N].
  - exfalso. destruct (proj2 (C156_panics blocks size new_sip ltac:(lia) eq_refl)) as (b' & x' & P'); [|congruence]. right. right. do 7 eexists. split; [exact B|]. split; [exact E|]. split; [exact R|exact T].
Qed.
Theorem C196_panics : (exists b x, sip_parse (reader blocks size) new_sip = (b, (x, Panic))) <-> ~ typed (received l).
Proof.
  destruct (message_begins _ _ _ _ _ size Hm Ho Hb H1 Hf Hz Hl) as (used & tail & eol & B & E & Ee). destruct (visited _ _ _ _ _ Hm Ho Hb H1) as (_ & Th & _ & _).
  pose proof (message_read s l Hm Th) as R. rewrite <- Hc in B. split.
  - intros (b & x & P) T. destruct (list_eq_dec (list_eq_dec Z.eq_dec) (values (received l) (str "content-length")) []) as [V|V].
    + pose proof (proj2 (length_numeral _ _ _ _ _ Hm Ho Hb H1) V) as N.
      destruct (proj2 (C156_refused blocks size new_sip ltac:(lia) eq_refl)) as (b' & x' & e & P'); [|congruence]. right. right. do 7 eexists. split; [exact B|]. split; [exact E|]. split; [exact R|]. split; [exact T|exact N].
    + destruct (C196_object T V) as (b' & x' & P' & _). congruence.
  - intros T. apply (C156_panics blocks size new_sip ltac:(lia) eq_refl). right. right. do 7 eexists. split; [exact B|]. split; [exact E|]. split; [exact R|exact T].
Qed.
(** A name without values takes the name behind it, and its values, for its own value: the name k2 is not received, and if
    it is Content-Length the message is not accepted. *)
Theorem C196_swallowed : forall a k k2 v2 vs c, l = a ++ (k, []) :: (k2, v2 :: vs) :: c -> (a = [] \/ finished a) ->
  In (k, one_value (k2 ++ str ": " ++ v2) vs) (received l) /\ values (received l) k2 = [] /\
  (k2 = str "content-length" -> forall b x, sip_parse (reader blocks size) new_sip <> (b, (x, Ok tt))).
Proof.
  intros a k k2 v2 vs c El Fa. destruct (visited _ _ _ _ _ Hm Ho Hb H1) as (_ & (Nd & _) & _ & _).
  assert (Sa : forall c', sent None (a ++ c') = sent None a ++ sent None c').
  { intros c'. destruct Fa as [->|Fa]; [reflexivity|]. clear - Fa. destruct Fa as (a0 & k & v & vs & ->). rewrite <- app_assoc. cbn [app].
    enough (G : forall o, sent o (a0 ++ (k, v :: vs) :: c') = sent o (a0 ++ [(k, v :: vs)]) ++ sent None c') by apply G.
    induction a0 as [|[k0 [|w ws]] a0 IH]; intros [[k1 t1]|]; cbn [app sent]; try reflexivity; try (apply IH); now rewrite IH. }
  assert (V : values (received l) k2 = []).
  { destruct (values (received l) k2) as [|w ws] eqn:E; [reflexivity|exfalso]. assert (I : In w (values (received l) k2)) by (rewrite E; now left). apply values_in in I. unfold received in I. rewrite El, Sa, map_app in I.
    cbn [sent map fst snd] in I. rewrite El, map_app in Nd. cbn [map fst] in Nd. apply NoDup_remove in Nd as [Nd Nk]. 
    assert (Nk2 : ~ In k2 (map fst a) /\ ~ In k2 (map fst c) /\ k <> k2).
    { pose proof (NoDup_remove_2 _ _ _ Nd) as N2. split; [intros X; apply N2, in_or_app; now left|]. split; [intros X; apply N2, in_or_app; now right|]. intros ->. apply Nk, in_or_app. right. now left. }
    assert (K : forall l' w', In (k2, w') (map (fun f : bytes * (bytes * list bytes) => (fst f, trim_sp (fst (snd f)) ++ flat_map (fun u => str " " ++ trim_space u) (snd (snd f)))) (sent None l')) -> In k2 (map fst l')).
    { intros l' w' X. apply in_map_iff in X as ([k' [t us]] & X & Y). cbn [fst snd] in X. injection X as -> _. destruct (sent_from _ _ _ _ _ Y) as [(z & Z1 & _)|[Z1|[t0 Z1]]]; [..|discriminate]; apply (in_map fst) in Z1; exact Z1. }
    apply in_app_or in I as [I|[I|I]]; [apply K in I; tauto|injection I as -> _; tauto|apply K in I; tauto]. }
  split; [|split; [exact V|]].
  - unfold received. rewrite El, Sa, map_app. apply in_or_app. right. left. reflexivity.
  - intros -> b x P. destruct (proj1 C196_accepted (ex_intro _ b (ex_intro _ x P))) as [_ X]. contradiction.
Qed.
End C196.

(** If the last name visited has no value, the payload stands where the headers end: there is no empty line before it, and its
    lines are read as header lines. *)
Theorem C196_payload_as_headers : forall order s s1 m1 text blocks size, text_message s -> iteration order -> sip_bytes order s = Ok (s1, text) -> s_headers s1 = Some m1 ->
  lines_fit size s (order m1) -> 2 <= size -> concat blocks = text -> ~ finished (order m1) -> s_payload s <> [] ->
  forall ls used tail eol rest fs n, begins size (s_payload s) ls used tail -> ends_here size tail eol rest -> fields (sent_lines (order m1) ++ ls) fs -> typed fs -> numeral (first_value fs (str "content-length")) n ->
  exists b x d, sip_parse (reader blocks size) new_sip = (b, (x, Ok tt)) /\ (forall k, get_header (s_headers x) k = values fs (to_lower k)) /\ s_payload x = eol ++ d /\ rest = d ++ bf_rest b.
Proof.
  intros order s s1 m1 text blocks size Hm Ho Hb H1 [Hs1 Hs2] Hz Hc Nf Np ls used tail eol rest fs n B E F T N.
  pose proof (unfinished_text _ _ _ _ _ Hm Ho Hb H1 Nf Np) as Et. destruct (visited _ _ _ _ _ Hm Ho Hb H1) as (_ & Th & Hfl & _). destruct (first_text_ok _ (text_plain s Hm)) as (G1 & G2 & _).
  specialize (Hs1 _ Hfl). rewrite len_app in Hs1. change (len [13; 10]) with 2 in Hs1.
  assert (Gl : Forall line_good (first_text s :: sent_lines (order m1))) by (constructor; [split; assumption|exact (lines_good _ (sent_good _ (proj2 Th) None I))]).
  assert (Ll : Forall (fun t => len t + 2 <= size) (first_text s :: sent_lines (order m1))) by (constructor; [lia|exact Hs2]).
  pose proof (begins_app size _ _ _ _ _ Gl Ll B) as B'. rewrite <- Et, <- Hc in B'. cbn [app] in B'.
  assert (R : lines_read new_sip (first_text s :: sent_lines (order m1) ++ ls) (after_first s new_sip) fs).
  { destruct (message_read s (order m1) Hm Th) as [[X _]|(f & hs & X & Y & _)]; [discriminate|]. injection X as <- <-. right. exists (first_text s), (sent_lines (order m1) ++ ls). auto. }
  destruct (C156_object blocks size new_sip ltac:(lia) eq_refl _ _ _ _ _ _ _ _ B' E R T N) as (b & x & d & P & M & D1 & _). exists b, x, d. split; [exact P|].
  destruct M as (_ & (m & Em & Gm) & _ & _ & _ & _ & _ & _ & Pl). split; [|split; [exact Pl|exact D1]].
  intros k. rewrite Em. rewrite get_header_vals; [|intros k'; rewrite Gm; destruct (values fs k'); discriminate]. unfold hvals, hlook. rewrite Gm. destruct (values fs (to_lower k)); reflexivity.
Qed.
(** If every name has a value, every name is received, with one value: all its values with a space between them. *)
Theorem C196_merged : forall order s s1 m1 text, text_message s -> iteration order -> sip_bytes order s = Ok (s1, text) -> s_headers s1 = Some m1 ->
  (forall k, ~ In (k, []) m1) ->
  finished (order m1) /\ forall k, values (received (order m1)) k = match hlook (s_headers s1) k with Some (v :: vs) => [one_value v vs] | _ => [] end.
Proof.
  intros order s s1 m1 text Hm Ho Hb H1 Hn. destruct (visited _ _ _ _ _ Hm Ho Hb H1) as (_ & (Nd & _) & _ & K).
  assert (N0 : forall k, ~ In (k, []) (order m1)) by (intros k X; apply (Permutation_in _ (Permutation_sym (Ho m1))) in X; exact (Hn k X)).
  assert (NE : order m1 <> []) by (intros E; assert (X : In (cl, [itoa (len (s_payload s))]) (order m1)) by (apply K; now rewrite bytes_eqb_refl); rewrite E in X; destruct X).
  split.
  - destruct (exists_last NE) as (l0 & [k [|v vs]] & E); [exfalso; apply (N0 k); rewrite E; apply in_or_app; right; now left|]. exists l0, k, v, vs. exact E.
  - assert (G : forall l, NoDup (map fst l) -> (forall k, ~ In (k, []) l) -> forall k, values (received l) k = match mget k l with Some (v :: vs) => [one_value v vs] | _ => [] end).
    { clear. induction l as [|[k0 [|v0 vs0]] l IH]; intros Nd N k; [reflexivity|exfalso; apply (N k0); now left|]. cbn [map fst] in Nd. inversion Nd as [|? ? Nk Nd']; subst.
      assert (N' : forall k, ~ In (k, []) l) by (intros k' X; apply (N k'); now right). specialize (IH Nd' N').
      unfold received, values in *. cbn [sent map filter fst snd]. cbn [mget]. replace (bytes_eqb k0 k) with (bytes_eqb k k0) by (destruct (bytes_eqb k k0) eqn:E1, (bytes_eqb k0 k) eqn:E2; try reflexivity; [apply bytes_eqb_eq in E1; subst; rewrite bytes_eqb_refl in E2; discriminate|apply bytes_eqb_eq in E2; subst; rewrite bytes_eqb_refl in E1; discriminate]).
      destruct (bytes_eqb k k0) eqn:E; [|apply IH]. apply bytes_eqb_eq in E. subst k0. cbn [map snd]. f_equal. rewrite IH. apply mget_none in Nk. now rewrite Nk. }
    intros k. rewrite G by assumption. rewrite H1. cbn [hlook]. rewrite (mget_perm m1 (order m1)); [reflexivity| |apply Ho].
    eapply Permutation_NoDup; [apply Permutation_map, Permutation_sym, Ho|exact Nd].
Qed.

(** A response with two Via values, which arrive as one; and, with a name that has no value, one whose Content-Length is lost
    or not as the names are visited. *)
Definition ex_hops (h : hmap) : sip := with_headers (Some ([(str "via", [str "SIP/2.0/UDP p.com;branch=1"; str "SIP/2.0/UDP a.com;branch=2"]); (str "from", [str "<sip:a@b>"])] ++ h))
  (with_response true 200 [] (with_version 2 new_sip)).
Lemma ex_hops_text h : text_headers h -> ~ In (str "via") (map fst h) -> ~ In (str "from") (map fst h) -> text_message (ex_hops h).
Proof.
  intros [H1 H2] N1 N2. split; [cbn; lia|]. split; [|vm_compute; discriminate]. eexists. split; [reflexivity|]. cbn [app]. split.
  - cbn [map fst]. constructor; [intros [E|E]; [discriminate|contradiction]|]. constructor; assumption.
  - constructor; [|constructor; [|exact H2]]; (split; [unfold lower_name; cbn [fst]; plain_chars|]); cbn [snd]; repeat (constructor; [plain_chars|]); constructor.
Qed.
Example C196_example :
  text_message (ex_hops []) /\ (exists s1 m1 text, sip_bytes (fun m => m) (ex_hops []) = Ok (s1, text) /\ s_headers s1 = Some m1 /\ (forall k, ~ In (k, []) m1) /\ lines_fit 4096 (ex_hops []) m1 /\
    typed (received m1) /\ values (received m1) (str "content-length") <> [] /\
    exists x, sip_parse_bytes text new_sip = (x, Ok tt) /\ get_header (s_headers x) (str "Via") = [str "SIP/2.0/UDP p.com;branch=1 SIP/2.0/UDP a.com;branch=2"]) /\
  text_message (ex_hops [(str "subject", [])]) /\ (exists s1 m1 text, sip_bytes (fun m => m) (ex_hops [(str "subject", [])]) = Ok (s1, text) /\ s_headers s1 = Some m1 /\
    m1 = [(str "via", [str "SIP/2.0/UDP p.com;branch=1"; str "SIP/2.0/UDP a.com;branch=2"]); (str "from", [str "<sip:a@b>"])] ++ (str "subject", []) :: (str "content-length", [str "0"]) :: [] /\ finished m1 /\
    snd (sip_parse_bytes text new_sip) = Err EOther) /\
  (exists s1 text x, sip_bytes (@rev _) (ex_hops [(str "subject", [])]) = Ok (s1, text) /\ sip_parse_bytes text new_sip = (x, Ok tt) /\ get_header (s_headers x) (str "Subject") = [str "from: <sip:a@b>"] /\ get_header (s_headers x) (str "From") = []) /\
  (let s := with_layer [] (str "Expires: 0") (ex_hops [(str "subject", [])]) in let last := fun m : hmap => filter (fun p => 0 <? len (snd p)) m ++ filter (fun p => len (snd p) =? 0) m in
   exists s1 text x, sip_bytes last s = Ok (s1, text) /\ sip_parse_bytes text new_sip = (x, Ok tt) /\ get_header (s_headers x) (str "Expires") = [str "0"] /\ s_payload x = []).
Proof.
  split; [apply ex_hops_text; [split; constructor|intros []|intros []]|]. split; [|split; [|split; [|split]]].
  - do 3 eexists. split; [vm_compute; reflexivity|]. split; [vm_compute; reflexivity|]. split; [|split; [|split; [|split]]].
    + intros k. cbn. intros [E|[E|[E|[]]]]; discriminate.
    + split; [intros t E; apply (f_equal (fun r => match r with Ok y => len y | _ => 0 end)) in E; revert E; vm_compute; intros <-; discriminate|]. repeat constructor; vm_compute; discriminate.
    + split.
      * intros n [<-|[<-|[<-|[]]]]; eexists; apply C154_address_exactly; vm_compute; reflexivity.
      * eexists. apply C154_via_exactly. vm_compute. reflexivity.
    + vm_compute. discriminate.
    + eexists. split; vm_compute; reflexivity.
  - apply ex_hops_text; [|intros [E|[]]; discriminate|intros [E|[]]; discriminate]. split; [repeat constructor; intros []|]. constructor; [|constructor]. split; [unfold lower_name; cbn [fst]; plain_chars|constructor].
  - do 3 eexists. split; [vm_compute; reflexivity|]. split; [vm_compute; reflexivity|]. split; [reflexivity|]. split; [|vm_compute; reflexivity].
    exists [(str "via", [str "SIP/2.0/UDP p.com;branch=1"; str "SIP/2.0/UDP a.com;branch=2"]); (str "from", [str "<sip:a@b>"]); (str "subject", [])], (str "content-length"), (str "0"), []. reflexivity.
  - do 3 eexists. split; [vm_compute; reflexivity|]. split; [vm_compute; reflexivity|]. split; vm_compute; reflexivity.
  - cbv zeta. do 3 eexists. split; [vm_compute; reflexivity|]. split; [vm_compute; reflexivity|]. split; vm_compute; reflexivity.
Qed.
Print Assumptions C196_object.
Print Assumptions C196_accepted.
Print Assumptions C196_panics.
Print Assumptions C196_swallowed.
Print Assumptions C196_merged.
Print Assumptions C196_payload_as_headers.
