From Coq Require Import String Permutation.
From Verif Require Import Base.Go Base.GoFacts Base.IO Base.Text Model.Sip Spec.Sip Spec.SipHops Spec.SipBreaks Proofs.Text Proofs.Sip Proofs.SipMsg
  Proofs.SipRead Proofs.SipText Proofs.SipParse Proofs.SipMore Proofs.SipHeaders Proofs.SipFields Props.Sip Props.SipMsg Props.SipHops.
Import ListNotations. Local Open Scope list_scope. Local Open Scope Z_scope.

(** * Nothing that is read contains a line feed. *)
Lemma trim_in {A} (p : A -> bool) l x : In x (trim_by p l) -> In x l.
Proof. intros H. destruct (trim_by_parts p l) as (a & b & E & _). rewrite E. apply in_or_app. right. apply in_or_app. now left. Qed.
Lemma trim_space_in s x : In x (trim_space s) -> In x s.
Proof.
  intros H. unfold trim_space in H. apply in_flat_map in H as (p & Hp & Hx). apply trim_in in Hp. rewrite <- (decode_source s). apply in_flat_map. eauto.
Qed.
Lemma cut_parts c s a b : cut c s = Some (a, b) -> s = a ++ c :: b /\ ~ In c a.
Proof.
  revert a b. induction s as [|x s IH]; intros a b; cbn [cut]; [discriminate|]. destruct (x =? c) eqn:E.
  - intros [= <- <-]. apply Z.eqb_eq in E. subst. split; [reflexivity|intros []].
  - destruct (cut c s) as [[a' b']|]; [|discriminate]. intros [= <- <-]. destruct (IH _ _ eq_refl) as [-> N]. split; [reflexivity|]. intros [->|H]; [rewrite Z.eqb_refl in E; discriminate|contradiction].
Qed.
Lemma cut_none_in c s : cut c s = None -> ~ In c s.
Proof.
  induction s as [|x s IH]; cbn [cut]; [intros _ []|]. destruct (x =? c) eqn:E; [discriminate|]. destruct (cut c s) as [[a b]|]; [discriminate|]. intros _ [->|H]; [rewrite Z.eqb_refl in E; discriminate|now apply IH].
Qed.
Lemma read_slice_line f : forall b b' line eof, read_slice f b = (b', Ok (line, eof)) -> exists l, ~ In 10 l /\ (line = l ++ [10] \/ line = l).
Proof.
  induction f as [|f IH]; intros b b' line eof; cbn [read_slice]; [discriminate|]. destruct (cut 10 (bf_buf b)) as [[l rest]|] eqn:C.
  - intros [= <- <- <-]. apply cut_parts in C as [_ N]. exists l. auto.
  - destruct (bf_eof b); [intros [= <- <- <-]; exists (bf_buf b); split; [now apply cut_none_in|now right]|].
    destruct (len (bf_buf b) >=? bf_size b); [discriminate|]. destruct (src_read _ _) as [[d cs]|]; apply IH.
Qed.
Lemma drop_while_in {A} (p : A -> bool) l x : In x (drop_while p l) -> In x l.
Proof. induction l as [|y l IH]; cbn [drop_while]; [auto|]. destruct (p y); [intros H; right; auto|auto]. Qed.
Lemma trim_line l : ~ In 10 l -> ~ In 10 (trim_crlf (l ++ [10])) /\ ~ In 10 (trim_crlf l).
Proof.
  intros N. split; [|intros H; apply trim_in in H; contradiction]. unfold trim_crlf, trim_by. intros H. apply in_rev in H.
  set (p := fun c => (c =? 13) || (c =? 10)) in *.
  assert (E : drop_while p (l ++ [10]) = [] \/ exists m, drop_while p (l ++ [10]) = m ++ [10] /\ ~ In 10 m).
  { clear H. induction l as [|x l IH]; [left; reflexivity|]. cbn [app drop_while]. destruct (p x); [apply IH; intros H; apply N; now right|]. right. exists (x :: l). auto. }
  destruct E as [E|(m & E & Nm)]; rewrite E in H; [exact H|]. rewrite rev_app_distr in H. cbn [rev app drop_while] in H. change (p 10) with true in H. cbv iota in H.
  apply drop_while_in in H. apply in_rev in H. contradiction.
Qed.
Lemma no_breaks_mset m n vs : no_breaks (Some m) -> (forall v, In v vs -> ~ In 10 v) -> no_breaks (Some (mset n vs m)).
Proof.
  intros H V k v I. unfold hvals, hlook in I. rewrite mget_mset in I. destruct (bytes_eqb k n); [now apply V|]. exact (H k v I).
Qed.
Lemma append_last_in x l l' v : append_last x l = Some l' -> In v l' -> In v l \/ exists u, In u l /\ v = u ++ x.
Proof.
  revert l'. induction l as [|u l IH]; intros l'; cbn [append_last]; [discriminate|]. destruct l as [|w l].
  - intros [= <-] [<-|[]]. right. exists u. split; [now left|reflexivity].
  - destruct (append_last x (w :: l)) as [l''|] eqn:E; [|discriminate]. intros [= <-] [<-|H]; [left; now left|]. destruct (IH _ eq_refl H) as [H1|(y & H1 & H2)]; [left; now right|right; exists y; split; [now right|assumption]].
Qed.
Lemma parse_header_breaks line s x r : ~ In 10 line -> no_breaks (s_headers s) -> parse_header line s = (x, r) -> no_breaks (s_headers x).
Proof.
  intros N H. unfold parse_header. destruct line as [|c t] eqn:EL; [intros [= <- _]; exact H|]. rewrite <- EL in *.
  destruct ((c =? 9) || (c =? 32)).
  - destruct (append_last (32 :: trim_space line) (hvals (s_headers s) (s_last s))) as [l|] eqn:A; [|intros [= <- _]; exact H].
    destruct (s_headers s) as [m|] eqn:M; [|intros [= <- _]; rewrite M; exact H]. intros [= <- _]. cbn [with_headers s_headers]. apply no_breaks_mset; [exact H|].
    intros v Hv. destruct (append_last_in _ _ _ _ A Hv) as [I|(u & I & ->)]; [exact (H _ _ I)|]. intros Z. apply in_app_or in Z as [Z|[Z|Z]]; [exact (H _ _ I Z)|discriminate|].
    apply trim_space_in in Z. contradiction.
  - destruct (cut 58 line) as [[a b]|] eqn:C; [|intros [= <- _]; exact H]. apply cut_parts in C as [C _]. destruct (s_headers s) as [m|] eqn:M; [|intros [= <- _]; rewrite M; exact H]. intros [= <- _].
    cbn [with_last with_headers s_headers]. apply no_breaks_mset; [exact H|]. intros v Hv. apply in_app_or in Hv as [Hv|[<-|[]]]; [exact (H _ _ Hv)|].
    intros Z. apply trim_in in Z. apply N. rewrite C. apply in_or_app. right. now right.
Qed.
Lemma parse_first_breaks line s x r : parse_first_line line s = (x, r) -> s_headers x = s_headers s.
Proof.
  unfold parse_first_line. destruct (split3 line) as [|a [|b [|c [|d l]]]]; try (intros [= <- _]; reflexivity).
  destruct (has_prefix a (str "SIP")).
  - destruct (get_version a); [destruct (atoi b)|..]; intros [= <- _]; reflexivity.
  - destruct (get_method a); [|intros [= <- _]; reflexivity..]. destruct (new_request b); [destruct (get_version c)|..]; intros [= <- _]; reflexivity.
Qed.
Lemma parse_lines_breaks f : forall b count offset buffer s b' x r, no_breaks (s_headers s) -> parse_lines f b count offset buffer s = (b', (x, r)) -> no_breaks (s_headers x).
Proof.
  induction f as [|f IH]; intros b count offset buffer s b' x r H; cbn [parse_lines]; [intros [= <- <- _]; exact H|].
  destruct (read_slice _ b) as [b1 [[line eof]|e| |]] eqn:R; try (intros [= _ <- _]; exact H).
  destruct (eof && _); [intros [= _ <- _]; exact H|]. destruct (len (trim_crlf line) =? 0); [intros [= _ <- _]; exact H|].
  assert (N : ~ In 10 (trim_crlf line)). { destruct (read_slice_line _ _ _ _ _ R) as (l & Nl & [->| ->]); apply (trim_line l Nl). }
  destruct (if count =? 0 then parse_first_line (trim_crlf line) s else parse_header (trim_crlf line) s) as [s' r'] eqn:P.
  assert (H' : no_breaks (s_headers s')).
  { destruct (count =? 0); [apply parse_first_breaks in P; rewrite P; exact H|eapply parse_header_breaks; [exact N|exact H|exact P]]. }
  destruct r' as [[]|e| |]; try (intros [= _ <- _]; exact H'). apply IH. exact H'.
Qed.
Lemma fill_header_same s x r : fill_header s = (x, r) -> s_headers x = s_headers s.
Proof.
  unfold fill_header. destruct (get_sip_contact _); [|intros [= <- _]; reflexivity..]. destruct (get_sip_cseq _); [|intros [= <- _]; reflexivity..].
  destruct (get_sip_from _); [|intros [= <- _]; reflexivity..]. destruct (get_sip_to _); [|intros [= <- _]; reflexivity..]. destruct (get_sip_via _); intros [= <- _]; reflexivity.
Qed.
Lemma sip_parse_breaks b s b' x r : no_breaks (s_headers s) -> sip_parse b s = (b', (x, r)) -> no_breaks (s_headers x).
Proof.
  intros H. unfold sip_parse. destruct (parse_lines _ b 0 0 [] s) as [b1 [s1 r1]] eqn:P. pose proof (parse_lines_breaks _ _ _ _ _ _ _ _ _ H P) as H1.
  destruct r1 as [[offset buffer]|e| |]; try (intros [= _ <- _]; exact H1). destruct (fill_header s1) as [s2 r2] eqn:F. apply fill_header_same in F.
  assert (H2 : no_breaks (s_headers s2)) by (rewrite F; exact H1). destruct r2 as [[]|e| |]; try (intros [= _ <- _]; exact H2).
  destruct (fill_body _ _ _) as [b2 [body|e| |]]; intros [= _ <- _]; exact H2.
Qed.

(** * A header inside a value *)
Lemma hmap_dec (a b : hmap) : {a = b} + {a <> b}.
Proof. apply list_eq_dec. intros [k vs] [k' vs']. destruct (list_eq_dec Z.eq_dec k k') as [->|N]; [|right; congruence]. destruct (list_eq_dec (list_eq_dec Z.eq_dec) vs vs') as [->|N]; [now left|right; congruence]. Qed.
Definition expand (n v n2 v2 : bytes) (l : hmap) : hmap := flat_map (fun p => if bytes_eqb (fst p) n then [(n, [v]); (n2, [v2])] else [p]) l.
Lemma expand_bytes n v n2 v2 l : Forall (fun p => fst p = n -> snd p = [with_header_in v n2 v2]) l -> header_bytes (expand n v n2 v2 l) = header_bytes l.
Proof.
  induction 1 as [|p l Hp H IH]; [reflexivity|]. unfold expand, header_bytes in *. cbn [flat_map]. rewrite flat_map_app, IH. f_equal. destruct (bytes_eqb (fst p) n) eqn:E.
  - apply bytes_eqb_eq in E. rewrite (Hp E), E. unfold with_header_in. change (str ": ") with [58; 32]. cbn [flat_map fst snd app]. rewrite ?app_nil_r. repeat (rewrite <- ?app_assoc; cbn [app]). reflexivity.
  - cbn [flat_map]. apply app_nil_r.
Qed.
Lemma expand_other n v n2 v2 l : ~ In n (map fst l) -> expand n v n2 v2 l = l.
Proof.
  induction l as [|p l IH]; intros N; [reflexivity|]. unfold expand in *. cbn [flat_map]. cbn [map] in N. destruct (bytes_eqb (fst p) n) eqn:E; [apply bytes_eqb_eq in E; elim N; now left|].
  rewrite IH by (intros H; apply N; now right). reflexivity.
Qed.
Lemma mset_new {A} k (v : A) m : ~ In k (map fst m) -> mset k v m = m ++ [(k, v)].
Proof.
  induction m as [|[k' u] m IH]; intros N; [reflexivity|]. cbn [mset]. cbn [map fst] in N. destruct (bytes_eqb k k') eqn:E; [apply bytes_eqb_eq in E; subst; elim N; now left|].
  rewrite IH by (intros H; apply N; now right). reflexivity.
Qed.
Lemma expand_set n v n2 v2 w m : NoDup (map fst m) -> n <> n2 -> ~ In n2 (map fst m) ->
  Permutation (mset n2 [v2] (mset n [v] m)) (expand n v n2 v2 (mset n [w] m)).
Proof.
  intros D Hn. assert (E2 : bytes_eqb n2 n = false) by (apply bytes_eqb_neq; congruence). induction m as [|[k u] m IH]; intros N.
  - cbn [mset]. unfold expand. cbn [flat_map fst mset app]. rewrite bytes_eqb_refl, E2. reflexivity.
  - cbn [map fst] in *. inversion D as [|x y D1 D2]; subst. cbn [mset]. destruct (bytes_eqb n k) eqn:E.
    + apply bytes_eqb_eq in E. subst k. cbn [mset]. rewrite E2. change (expand n v n2 v2 ((n, [w]) :: m)) with ((if bytes_eqb n n then [(n, [v]); (n2, [v2])] else [(n, [w])]) ++ expand n v n2 v2 m).
      rewrite bytes_eqb_refl, expand_other by assumption. cbn [app]. constructor. rewrite mset_new by (intros H; apply N; now right). apply Permutation_sym, Permutation_cons_append.
    + cbn [mset]. destruct (bytes_eqb n2 k) eqn:E3; [apply bytes_eqb_eq in E3; elim N; now left|].
      change (expand n v n2 v2 ((k, u) :: mset n [w] m)) with ((if bytes_eqb k n then [(n, [v]); (n2, [v2])] else [(k, u)]) ++ expand n v n2 v2 (mset n [w] m)).
      destruct (bytes_eqb k n) eqn:E4; [apply bytes_eqb_eq in E4; subst; rewrite bytes_eqb_refl in E; discriminate|]. cbn [app]. constructor. apply IH; [assumption|]. intros H. apply N. now right.
Qed.
Lemma mset_perm {A} k (v : A) m m' : NoDup (map fst m) -> Permutation m m' -> Permutation (mset k v m) (mset k v m').
Proof.
  intros D P. assert (D' : NoDup (map fst m')) by (eapply Permutation_NoDup; [apply Permutation_map; exact P|exact D]).
  apply NoDup_Permutation; [eapply NoDup_map_inv; now apply mset_nodup|eapply NoDup_map_inv; now apply mset_nodup|].
  intros [a b]. split; intros H; apply in_mget in H; try (now apply mset_nodup); apply mget_in; rewrite mget_mset in *; destruct (bytes_eqb a k); try exact H.
  - rewrite (mget_perm m m') by assumption. exact H.
  - rewrite <- (mget_perm m m') by assumption. exact H.
Qed.
Lemma expand_cl n v n2 v2 c m : n <> cl -> n2 <> cl -> Permutation (mset cl c (expand n v n2 v2 m)) (expand n v n2 v2 (mset cl c m)).
Proof.
  intros H1 H2. assert (E1 : bytes_eqb cl n = false) by (apply bytes_eqb_neq; congruence). assert (E2 : bytes_eqb cl n2 = false) by (apply bytes_eqb_neq; congruence).
  assert (X : forall p l, expand n v n2 v2 (p :: l) = (if bytes_eqb (fst p) n then [(n, [v]); (n2, [v2])] else [p]) ++ expand n v n2 v2 l) by reflexivity.
  induction m as [|[k u] m IH].
  - cbn [mset]. rewrite X. cbn [fst]. rewrite E1. reflexivity.
  - rewrite X. cbn [mset fst]. destruct (bytes_eqb k n) eqn:E.
    + apply bytes_eqb_eq in E. subst k. rewrite E1. rewrite X. cbn [fst]. rewrite bytes_eqb_refl. cbn [app mset]. rewrite E1, E2. do 2 constructor. exact IH.
    + cbn [app mset]. destruct (bytes_eqb cl k) eqn:E3; rewrite X; cbn [fst]; [rewrite E1; reflexivity|rewrite E; cbn [app]; constructor; exact IH].
Qed.
Lemma same_text order s m n v n2 v2 h' h2 : iteration order -> s_headers s = Some m -> NoDup (map fst m) ->
  to_lower n2 = n2 -> to_lower n <> n2 -> to_lower n <> cl -> n2 <> cl -> ~ In n2 (map fst m) -> forged (s_headers s) n v n2 v2 h' h2 ->
  exists order2, iteration order2 /\ forall t,
    (exists s1, sip_bytes order (with_headers h' s) = Ok (s1, t)) <-> (exists s1, sip_bytes order2 (with_headers h2 s) = Ok (s1, t)).
Proof.
  intros Ho Em D L2 Nn Nc N2c N2 (F1 & h1 & F2 & F3). rewrite Em in F1, F2. unfold set_first in F1, F2. injection F1 as <-. injection F2 as <-. cbn [set_first] in F3. rewrite L2 in F3. injection F3 as <-.
  set (k := to_lower n) in *. set (w := with_header_in v n2 v2). set (c := [itoa (len (s_payload s))]).
  set (M := mset cl c (mset k [w] m)). set (M2 := mset cl c (mset n2 [v2] (mset k [v] m))).
  set (order2 := fun l => if hmap_dec l M2 then expand k v n2 v2 (order M) else l).
  assert (I2 : iteration order2).
  { intros l. unfold order2. destruct (hmap_dec l M2) as [->|]; [|reflexivity]. eapply Permutation_trans; [|apply Permutation_flat_map, Ho]. fold (expand k v n2 v2 M).
    eapply Permutation_trans; [|apply expand_cl; assumption]. apply mset_perm; [now apply mset_nodup, mset_nodup|]. apply expand_set; assumption. }
  exists order2. split; [exact I2|].
  assert (T : header_bytes (order2 M2) = header_bytes (order M)).
  { unfold order2. destruct (hmap_dec M2 M2) as [_|X]; [|congruence]. apply expand_bytes. apply Forall_forall. intros [a b] Hp. cbn [fst snd]. intros ->.
    apply (Permutation_in _ (Permutation_sym (Ho M))) in Hp. apply in_mget in Hp; [|now apply mset_nodup, mset_nodup]. unfold M in Hp. rewrite mget_mset_other, mget_mset_same in Hp by assumption. injection Hp as <-. reflexivity. }
  intros t. unfold sip_bytes, first_line. cbn [with_headers s_isresp s_version s_code s_method s_request s_headers s_payload].
  destruct (s_isresp s).
  - cbn [bind set_content_length set_first s_headers with_headers s_payload]. unfold set_content_length, set_first. cbn [bind s_headers with_headers s_payload]. change (to_lower (str "content-length")) with cl. fold c M M2. rewrite T.
    split; intros [s1 E]; injection E as _ <-; eexists; reflexivity.
  - destruct (s_request s) as [r|]; [|split; intros [s1 E]; discriminate]. cbn [bind]. unfold set_content_length, set_first. cbn [bind s_headers with_headers with_request s_payload]. change (to_lower (str "content-length")) with cl. fold c M M2. rewrite T.
    split; intros [s1 E]; injection E as _ <-; eexists; reflexivity.
Qed.
