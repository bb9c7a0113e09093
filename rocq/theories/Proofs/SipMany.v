From Coq Require Import String Permutation.
From Verif Require Import Base.Go Base.GoFacts Base.IO Base.Text Model.Sip Spec.Sip Spec.SipLine Spec.SipAddr Spec.SipWhole Spec.SipMany Proofs.Text Proofs.Sip Proofs.SipMsg
  Proofs.SipRead Proofs.SipText Proofs.SipParse Proofs.SipMore Proofs.SipHeaders Proofs.SipFields Proofs.SipWhole Props.SipLine Props.SipWhole.
Import ListNotations. Local Open Scope list_scope. Local Open Scope Z_scope.

Lemma with_crlf_app a b : with_crlf (a ++ b) = with_crlf a ++ with_crlf b.
Proof. unfold with_crlf. apply flat_map_app. Qed.
Lemma with_crlf_cons l ls : with_crlf (l :: ls) = l ++ [13; 10] ++ with_crlf ls.
Proof. unfold with_crlf. cbn [flat_map]. now rewrite <- app_assoc. Qed.
Lemma with_crlf_nil : with_crlf [] = [].
Proof. reflexivity. Qed.

(** * The text *)
Definition opened (o : option (bytes * bytes)) : bytes := match o with Some (k, t) => k ++ str ":" ++ t | None => [] end.
Definition lines_of (fs : list (bytes * (bytes * list bytes))) : list bytes :=
  flat_map (fun f => (fst f ++ str ":" ++ fst (snd f)) :: map (fun u => str " " ++ u) (snd (snd f))) fs.
Lemma lines_of_cons f fs : lines_of (f :: fs) = (fst f ++ str ":" ++ fst (snd f)) :: map (fun u => str " " ++ u) (snd (snd f)) ++ lines_of fs.
Proof. reflexivity. Qed.
Definition tail_of (o : option (bytes * bytes)) (l : hmap) : bytes := match o, l with Some _, [] => [13; 10] | _, _ => [] end.
(** Whether the text ends within a line. *)
Fixpoint within (o : bool) (l : hmap) : bool :=
  match l with
  | [] => o
  | (_, []) :: l => within true l
  | (_, _ :: _) :: l => within false l
  end.
Lemma more_lines vs : flat_map (fun v => [32] ++ v ++ [13; 10]) vs = with_crlf (map (fun u => str " " ++ u) vs).
Proof. induction vs as [|v vs IH]; [reflexivity|]. cbn [flat_map map]. rewrite with_crlf_cons, IH. change (str " ") with [32]. rewrite <- !app_assoc. reflexivity. Qed.
Lemma header_bytes_cons k vs l : header_bytes ((k, vs) :: l) = k ++ [58] ++ flat_map (fun v => [32] ++ v ++ [13; 10]) vs ++ header_bytes l.
Proof. unfold header_bytes. cbn [flat_map fst snd]. rewrite <- !app_assoc. reflexivity. Qed.
Lemma sent_text l : forall o, opened o ++ header_bytes l ++ (if within (match o with Some _ => true | None => false end) l then [13; 10] else []) = with_crlf (lines_of (sent o l)).
Proof.
  induction l as [|[k vs] l IH]; intros o.
  - destruct o as [[k t]|]; cbn [within sent]; [|reflexivity]. rewrite lines_of_cons, with_crlf_cons. reflexivity.
  - rewrite header_bytes_cons. destruct o as [[k0 t]|], vs as [|v vs]; cbn [within sent].
    + specialize (IH (Some (k0, t ++ k ++ str ":"))). cbn [opened] in *. rewrite <- IH. change (str ":") with [58]. cbn [flat_map]. repeat (rewrite <- ?app_assoc; cbn [app]). reflexivity.
    + specialize (IH None). cbn [opened app] in IH. rewrite lines_of_cons. cbn [fst snd opened]. rewrite with_crlf_cons, with_crlf_app, <- IH, <- more_lines. cbn [flat_map]. change (str ":") with [58]. change (str ": ") with [58; 32].
      repeat (rewrite <- ?app_assoc; cbn [app]). reflexivity.
    + specialize (IH (Some (k, []))). cbn [opened] in *. rewrite <- IH. change (str ":") with [58]. cbn [flat_map]. repeat (rewrite <- ?app_assoc; cbn [app]). reflexivity.
    + specialize (IH None). cbn [opened app] in IH. rewrite lines_of_cons. cbn [fst snd opened]. rewrite with_crlf_cons, with_crlf_app, <- IH, <- more_lines. cbn [flat_map]. change (str ":") with [58]. change (str " ") with [32].
      repeat (rewrite <- ?app_assoc; cbn [app]). reflexivity.
Qed.
Lemma within_app l1 l2 : forall o, within o (l1 ++ l2) = within (within o l1) l2.
Proof. induction l1 as [|[k [|v vs]] l1 IH]; intros o; cbn [app within]; auto. Qed.
Lemma within_finished l o : finished l -> within o l = false.
Proof. intros (l0 & k & v & vs & ->). now rewrite within_app. Qed.
Lemma within_not l : l <> [] -> ~ finished l -> within false l = true.
Proof.
  intros N F. destruct (exists_last N) as (l0 & [k vs] & ->). rewrite within_app. destruct vs as [|v vs]; [reflexivity|]. elim F. exists l0, k, v, vs. reflexivity.
Qed.

(** * Its lines *)
Definition line_good (t : bytes) : Prop := t <> [] /\ without [13; 10] t.
Definition parts_good (f : bytes * (bytes * list bytes)) : Prop := lower_name (fst f) /\ without [13; 10] (fst (snd f)) /\ Forall (without [13; 10]) (snd (snd f)).
Lemma name_without k : lower_name k -> without [13; 10] k.
Proof. intros [_ H]. eapply Forall_impl; [|exact H]. cbn. unfold graphic. intros; lia. Qed.
Lemma sent_good l : Forall (fun p => lower_name (fst p) /\ Forall (without [13; 10]) (snd p)) l -> forall o,
  match o with Some (k, t) => lower_name k /\ without [13; 10] t | None => True end -> Forall parts_good (sent o l).
Proof.
  assert (W1 : without [13; 10] (str ":")) by (repeat constructor; cbn; lia).
  assert (W2 : without [13; 10] (str " ")) by (repeat constructor; cbn; lia).
  assert (W3 : without [13; 10] (str ": ")) by (repeat constructor; cbn; lia).
  induction 1 as [|[k vs] l [Hk Hv] H IH]; intros o Ho.
  - destruct o as [[k t]|]; cbn [sent]; [|constructor]. constructor; [|constructor]. split; [|split]; cbn [fst snd]; [tauto|tauto|constructor].
  - cbn [fst snd] in *. pose proof (name_without k Hk) as Wk. destruct o as [[k0 t]|], vs as [|v vs]; cbn [sent].
    + apply IH. split; [tauto|]. rewrite !without_app. tauto.
    + apply Forall_cons_iff in Hv as [Hv Hvs]. constructor; [|now apply IH]. split; [|split]; cbn [fst snd]; [tauto| |assumption]. rewrite !without_app. tauto.
    + apply IH. split; [tauto|constructor].
    + apply Forall_cons_iff in Hv as [Hv Hvs]. constructor; [|now apply IH]. split; [|split]; cbn [fst snd]; [tauto| |assumption]. rewrite !without_app. tauto.
Qed.
Lemma lines_good fs : Forall parts_good fs -> Forall line_good (lines_of fs).
Proof.
  induction 1 as [|[k [t us]] fs [Hk [Ht Hu]] H IH]; [constructor|]. rewrite lines_of_cons. cbn [fst snd] in *. constructor; [|apply Forall_app; split; [|exact IH]].
  - pose proof (name_without k Hk) as Wk. destruct Hk as [Hk _]. split; [destruct k; [congruence|discriminate]|]. rewrite !without_app. split; [assumption|]. split; [repeat constructor; cbn; lia|assumption].
  - apply Forall_map. eapply Forall_impl; [|exact Hu]. intros u W. split; [discriminate|]. apply without_app. split; [repeat constructor; cbn; lia|assumption].
Qed.
Lemma bare_line t z : line_good t -> z = [13; 10] \/ z = [] -> bare (t ++ z) t.
Proof.
  intros [N W] Hz. exists [], z. split; [reflexivity|]. split; [constructor|]. split; [destruct Hz as [->| ->]; [constructor; [now left|constructor; [now right|constructor]]|constructor]|]. unfold without in W. rewrite Forall_forall in W.
  split; intros c u ->; [specialize (W c (or_introl eq_refl))|specialize (W c (in_or_app u [c] c (or_intror (or_introl eq_refl))))]; cbn in W; lia.
Qed.
Lemma begins_line size t r ls used tail : line_good t -> len t + 2 <= size -> begins size r ls used tail -> begins size (t ++ [13; 10] ++ r) (t :: ls) ((t ++ [13; 10]) ++ used) tail.
Proof.
  intros G L B. eapply B_line; [|apply bare_line; [exact G|now left]|apply G|exact B]. split; [now rewrite <- app_assoc|]. split; [intros E; apply app_eq_nil in E as [_ E]; discriminate|].
  left. split; [|rewrite len_app; change (len [13; 10]) with 2; lia]. exists (t ++ [13]). split; [now rewrite <- app_assoc|]. apply without_app. split; [eapply without_sub; [|apply G]; cbn; tauto|repeat constructor; cbn; lia].
Qed.
Lemma begins_lines size ls tail : Forall line_good ls -> Forall (fun t => len t + 2 <= size) ls -> begins size (with_crlf ls ++ tail) ls (with_crlf ls) tail.
Proof.
  induction 1 as [|t ls G H IH]; intros L; [apply B_nil|]. apply Forall_cons_iff in L as [L1 L2]. rewrite with_crlf_cons. rewrite <- !app_assoc. replace (t ++ [13; 10] ++ with_crlf ls) with ((t ++ [13; 10]) ++ with_crlf ls) by (now rewrite <- app_assoc).
  apply begins_line; auto.
Qed.
Lemma begins_open size u ls : u ++ [13; 10] = with_crlf ls -> Forall line_good ls -> Forall (fun t => len t + 2 <= size) ls -> begins size u ls u [].
Proof.
  intros E G L. destruct ls as [|a ls] using rev_ind; [destruct u; discriminate|]. clear IHls. rewrite with_crlf_app in E.
  assert (Eu : u = with_crlf ls ++ a). { change (with_crlf [a]) with ((a ++ [13; 10]) ++ []) in E. rewrite ?app_nil_r in E. rewrite ?app_assoc in E. apply (f_equal (@rev Z)) in E. rewrite !rev_app_distr in E. cbn [rev app] in E. injection E as E. apply (f_equal (@rev Z)) in E. rewrite ?rev_app_distr, !rev_involutive in E. exact E. }
  apply Forall_app in G as [G1 G2]. apply Forall_app in L as [L1 L2]. apply Forall_cons_iff in G2 as [G2 _]. apply Forall_cons_iff in L2 as [L2 _]. rewrite Eu. clear E Eu u.
  induction G1 as [|t ls G H IH].
  - cbn [with_crlf flat_map app]. rewrite <- (app_nil_r a) at 3. eapply B_line; [|rewrite <- (app_nil_r a) at 1; apply bare_line; [exact G2|now right]|apply G2|apply B_nil].
    split; [now rewrite app_nil_r|]. split; [apply G2|]. right. split; [eapply without_sub; [|apply G2]; cbn; tauto|]. split; [reflexivity|lia].
  - apply Forall_cons_iff in L1 as [L1 L3]. rewrite with_crlf_cons, <- !app_assoc. cbn [app]. replace (t ++ 13 :: 10 :: with_crlf ls ++ a) with ((t ++ [13; 10]) ++ with_crlf ls ++ a) at 2 by (now rewrite <- app_assoc).
    apply begins_line; auto.
Qed.

(** * Its fields *)
Lemma trim_space_sp u : trim_space (str " " ++ u) = trim_space u.
Proof.
  unfold trim_space. rewrite decode_ascii_app by (repeat constructor; cbn; lia). cbn [map app]. f_equal.
Qed.
Lemma trim_sp_sp v : trim_sp (str " " ++ v) = trim_sp v.
Proof. reflexivity. Qed.
Lemma more_fields vs : forall ls fs n v, fields ls (fs ++ [(n, v)]) -> fields (ls ++ map (fun u => str " " ++ u) vs) (fs ++ [(n, v ++ flat_map (fun u => str " " ++ trim_space u) vs)]).
Proof.
  induction vs as [|u vs IH]; intros ls fs n v H; cbn [map flat_map]; [now rewrite !app_nil_r|].
  replace (ls ++ (str " " ++ u) :: map (fun u => str " " ++ u) vs) with ((ls ++ [str " " ++ u]) ++ map (fun u => str " " ++ u) vs) by (now rewrite <- app_assoc). rewrite app_assoc. apply IH.
  rewrite <- (trim_space_sp u). apply F_more; [exact H|]. exists u. left. reflexivity.
Qed.
Definition received_of (fs : list (bytes * (bytes * list bytes))) : list (bytes * bytes) :=
  map (fun f => (fst f, trim_sp (fst (snd f)) ++ flat_map (fun u => str " " ++ trim_space u) (snd (snd f)))) fs.
Lemma name_bare k : lower_name k -> trim_sp k = k.
Proof.
  intros [_ H]. apply spaces_iff. exists [], []. rewrite app_nil_r. split; [reflexivity|]. split; [constructor|]. split; [constructor|]. rewrite Forall_forall in H.
  split; intros c u ->; [specialize (H c (or_introl eq_refl))|specialize (H c (in_or_app u [c] c (or_intror (or_introl eq_refl))))]; unfold graphic in H; lia.
Qed.
Lemma sent_fields fs : Forall parts_good fs -> forall ls gs, fields ls gs -> fields (ls ++ lines_of fs) (gs ++ received_of fs).
Proof.
  induction 1 as [|[k [t us]] fs [Hk [Ht Hu]] H IH]; intros ls gs F; [cbn [lines_of received_of flat_map map]; now rewrite !app_nil_r|]. rewrite lines_of_cons. cbn [received_of map fst snd] in *. fold (received_of fs).
  replace (ls ++ (k ++ str ":" ++ t) :: map (fun u => str " " ++ u) us ++ lines_of fs) with (((ls ++ [k ++ str ":" ++ t]) ++ map (fun u => str " " ++ u) us) ++ lines_of fs) by (now rewrite <- !app_assoc).
  replace (gs ++ (k, trim_sp t ++ flat_map (fun u => str " " ++ trim_space u) us) :: received_of fs) with ((gs ++ [(k, trim_sp t ++ flat_map (fun u => str " " ++ trim_space u) us)]) ++ received_of fs) by (now rewrite <- app_assoc).
  apply IH, more_fields. rewrite <- (lower_name_lower k Hk) at 2. eapply F_field; [exact F| |reflexivity| | |].
  - destruct Hk as [N G]. destruct k as [|c k]; [congruence|]. apply Forall_cons_iff in G as [[G _] _]. intros [u [E|E]]; injection E as -> _; unfold graphic in G; lia.
  - destruct Hk as [N G]. eapply Forall_impl; [|exact G]. cbn. intros; lia.
  - now apply spaces_iff, name_bare.
  - now apply spaces_iff.
Qed.

(** * The message *)
Lemma text_plain s : text_message s -> plain_message (with_headers (Some []) s).
Proof.
  intros (H & _ & L). split; [exact H|]. split; [exists []; split; [reflexivity|]; split; constructor|]. split; [|exact L].
  split; [intros n [<-|[<-|[<-|[]]]]; eexists; vm_compute; reflexivity|eexists; vm_compute; reflexivity].
Qed.
Lemma cl_text n : 0 <= n -> lower_name cl /\ Forall (without [13; 10]) [itoa n].
Proof.
  intros H. destruct (cl_plain n H) as [A (v & E & B & _)]. cbn [snd] in E. injection E as <-. split; [exact A|]. constructor; [exact B|constructor].
Qed.
Lemma visited order s s1 text m1 : text_message s -> iteration order -> sip_bytes order s = Ok (s1, text) -> s_headers s1 = Some m1 ->
  text = (first_text s ++ [13; 10] ++ header_bytes (order m1)) ++ blank_and_body (s_payload s) /\ text_headers (order m1) /\
  first_line s = Ok (first_text s ++ [13; 10]) /\ forall k vs, In (k, vs) (order m1) <-> (if bytes_eqb k cl then vs = [itoa (len (s_payload s))] else In (k, vs) match s_headers s with Some m => m | None => [] end).
Proof.
  intros Hm Ho Hb H1. destruct (first_text_ok _ (text_plain s Hm)) as [_ [_ Hfl]]. change (first_line s = Ok (first_text s ++ [13; 10])) in Hfl. destruct Hm as (Hf & (m & Em & Hn & Ht) & Hl).
  unfold sip_bytes in Hb. rewrite Hfl in Hb. cbn [bind] in Hb. unfold set_content_length, set_first in Hb. cbv zeta in Hb.
  assert (Hhs : s_headers (if s_isresp s then s else with_request (s_method s) (match s_request s with Some r => Some (request_stored r) | None => None end) s) = Some m) by (destruct (s_isresp s); exact Em).
  rewrite Hhs in Hb. cbn [bind] in Hb. injection Hb as E1 E2. pose proof H1 as H2. rewrite <- E1 in H2. cbn [with_headers s_headers] in H2. injection H2 as H2.
  replace (s_payload _) with (s_payload s) in H2 by (destruct (s_isresp s); reflexivity). match type of H2 with context [to_lower ?x] => change (to_lower x) with cl in H2 end.
  replace (s_payload (if s_isresp s then s else with_request (s_method s) (match s_request s with Some r => Some (request_stored r) | None => None end) s)) with (s_payload s) in E2 by (destruct (s_isresp s); reflexivity).
  match type of E2 with context [to_lower ?x] => change (to_lower x) with cl in E2 end. rewrite H2 in E2. subst m1.
  assert (Nd : NoDup (map fst (mset cl [itoa (len (s_payload s))] m))) by (now apply mset_nodup).
  split; [|split; [|split; [exact Hfl|]]].
  - rewrite <- E2. rewrite <- !app_assoc. do 3 f_equal. cbn [with_headers s_payload]. destruct (s_isresp s); cbn [with_request s_payload]; destruct (s_payload s); reflexivity.
  - split; [eapply Permutation_NoDup; [apply Permutation_map, Ho|exact Nd]|]. eapply Permutation_Forall; [apply Ho|]. pose proof (cl_text (len (s_payload s)) (len_nonneg _)) as C.
    clear -Ht C. induction Ht as [|[k v] m Hp Hm IH]; cbn [mset]; [constructor; [exact C|constructor]|]. destruct (bytes_eqb cl k); constructor; assumption.
  - intros k vs. rewrite Em. split; intros I.
    + apply (Permutation_in _ (Permutation_sym (Ho _))) in I. apply in_mget in I; [|exact Nd]. rewrite mget_mset in I. destruct (bytes_eqb k cl); [congruence|now apply mget_in].
    + apply (Permutation_in _ (Ho _)). apply mget_in. rewrite mget_mset. destruct (bytes_eqb k cl); [congruence|now apply in_mget].
Qed.
Lemma message_begins order s s1 text m1 size : text_message s -> iteration order -> sip_bytes order s = Ok (s1, text) -> s_headers s1 = Some m1 ->
  lines_fit size s (order m1) -> 2 <= size -> finished (order m1) \/ s_payload s = [] ->
  exists used tail eol, begins size text (first_text s :: sent_lines (order m1)) used tail /\ ends_here size tail eol (s_payload s) /\ eol = (match s_payload s with [] => [] | _ => [13; 10] end).
Proof.
  intros Hm Ho Hb H1 [Hs1 Hs2] Hz Hf. destruct (visited _ _ _ _ _ Hm Ho Hb H1) as (Et & Th & Hfl & _). destruct (first_text_ok _ (text_plain s Hm)) as (G1 & G2 & _).
  specialize (Hs1 _ Hfl). rewrite len_app in Hs1. change (len [13; 10]) with 2 in Hs1.
  assert (Gf : line_good (first_text s)) by (split; assumption). pose proof (lines_good _ (sent_good _ (proj2 Th) None I)) as Gl. fold (sent_lines (order m1)) in Gl.
  change (lines_of (sent None (order m1))) with (sent_lines (order m1)) in Gl.
  pose proof (sent_text (order m1) None) as St. cbn [opened app] in St. change (lines_of (sent None (order m1))) with (sent_lines (order m1)) in St.
  destruct (within false (order m1)) eqn:W.
  - assert (Ep : s_payload s = []) by (destruct Hf as [F|E]; [rewrite (within_finished _ false F) in W; discriminate|exact E]). rewrite Ep in *. cbn [blank_and_body] in Et. rewrite app_nil_r in Et.
    exists text, [], []. split; [|split; [now left|reflexivity]]. apply begins_open; [|now constructor|constructor; [lia|exact Hs2]]. rewrite with_crlf_cons, <- St, Et, <- !app_assoc. reflexivity.
  - rewrite app_nil_r in St. rewrite St in Et. exists (with_crlf (first_text s :: sent_lines (order m1))), (blank_and_body (s_payload s)), (match s_payload s with [] => [] | _ => [13; 10] end). split; [|split; [|reflexivity]].
    + rewrite Et. replace (first_text s ++ [13; 10] ++ with_crlf (sent_lines (order m1))) with (with_crlf (first_text s :: sent_lines (order m1))) by apply with_crlf_cons. apply begins_lines; [now constructor|constructor; [lia|exact Hs2]].
    + destruct (s_payload s) as [|c p]; [now left|]. right. split.
      * split; [reflexivity|]. split; [discriminate|]. left. split; [exists [13]; split; [reflexivity|repeat constructor; cbn; lia]|exact Hz].
      * exists [], [13; 10]. split; [reflexivity|]. split; [constructor|]. split; [constructor; [now left|constructor; [now right|constructor]]|]. split; intros c0 u E; [discriminate|destruct u; discriminate].
Qed.
Lemma message_read s l : text_message s -> text_headers l -> lines_read new_sip (first_text s :: sent_lines l) (after_first s new_sip) (received l).
Proof.
  intros Hm [_ Ht]. right. exists (first_text s), (sent_lines l). split; [reflexivity|]. split.
  - apply C152_first_line_exactly. change (first_text s) with (first_text (with_headers (Some []) s)). rewrite (parse_first_text _ new_sip (text_plain s Hm)). reflexivity.
  - exact (sent_fields _ (sent_good _ Ht None I) [] [] F_none).
Qed.
(** * Where the fields come from *)
Lemma sent_from l : forall o k t us, In (k, (t, us)) (sent o l) -> (exists v, In (k, v :: us) l /\ t = str " " ++ v) \/ In (k, []) l \/ exists t0, o = Some (k, t0).
Proof.
  induction l as [|[k0 vs] l IH]; intros o k t us H.
  - destruct o as [[k1 t1]|]; cbn [sent] in H; [|destruct H]. destruct H as [H|[]]. injection H as -> -> ->. right. right. eauto.
  - destruct o as [[k1 t1]|], vs as [|v vs]; cbn [sent] in H.
    + destruct (IH _ _ _ _ H) as [(w & A & B)|[A|[t0 A]]]; [left; exists w; split; [now right|assumption]|right; left; now right|]. injection A as <- _. right. right. eauto.
    + destruct H as [H|H]; [injection H as -> _ _; right; right; eauto|]. destruct (IH _ _ _ _ H) as [(w & A & B)|[A|[t0 A]]]; [left; exists w; split; [now right|assumption]|right; left; now right|discriminate].
    + destruct (IH _ _ _ _ H) as [(w & A & B)|[A|[t0 A]]]; [left; exists w; split; [now right|assumption]|right; left; now right|]. injection A as <- _. right. left. now left.
    + destruct H as [H|H]; [injection H as -> <- ->; left; exists v; split; [now left|reflexivity]|]. destruct (IH _ _ _ _ H) as [(w & A & B)|[A|[t0 A]]]; [left; exists w; split; [now right|assumption]|right; left; now right|discriminate].
Qed.
Lemma values_in fs k v : In v (values fs k) <-> In (k, v) fs.
Proof.
  unfold values. rewrite in_map_iff. split.
  - intros ([k' v'] & <- & H). apply filter_In in H as [H E]. cbn [fst snd] in *. apply bytes_eqb_eq in E. now subst.
  - intros H. exists (k, v). split; [reflexivity|]. apply filter_In. split; [exact H|]. cbn [fst]. apply bytes_eqb_refl.
Qed.
Lemma trim_sp_number n : 0 <= n -> trim_sp (itoa n) = itoa n.
Proof.
  intros H. destruct (itoa_digits n H) as [D _]. apply spaces_iff. exists [], []. rewrite app_nil_r. split; [reflexivity|]. split; [constructor|]. split; [constructor|]. rewrite Forall_forall in D.
  split; intros c u E; rewrite E in D; [specialize (D c (or_introl eq_refl))|specialize (D c (in_or_app u [c] c (or_intror (or_introl eq_refl))))]; lia.
Qed.
Lemma length_field order s s1 text m1 : text_message s -> iteration order -> sip_bytes order s = Ok (s1, text) -> s_headers s1 = Some m1 ->
  forall v, In v (values (received (order m1)) cl) -> v = itoa (len (s_payload s)).
Proof.
  intros Hm Ho Hb H1 v H. destruct (visited _ _ _ _ _ Hm Ho Hb H1) as (_ & _ & _ & K). apply values_in in H. unfold received in H. apply in_map_iff in H as ([k [t us]] & E & H). cbn [fst snd] in E. injection E as -> <-.
  destruct (sent_from _ _ _ _ _ H) as [(w & A & ->)|[A|[t0 A]]]; [|apply K in A; rewrite bytes_eqb_refl in A; discriminate|discriminate]. apply K in A. rewrite bytes_eqb_refl in A. injection A as -> ->. cbn [flat_map]. rewrite app_nil_r, trim_sp_sp.
  apply trim_sp_number, len_nonneg.
Qed.
Lemma length_numeral order s s1 text m1 : text_message s -> iteration order -> sip_bytes order s = Ok (s1, text) -> s_headers s1 = Some m1 ->
  (values (received (order m1)) cl <> [] -> numeral (first_value (received (order m1)) cl) (len (s_payload s))) /\ (values (received (order m1)) cl = [] -> forall n, ~ numeral (first_value (received (order m1)) cl) n).
Proof.
  intros Hm Ho Hb H1. pose proof (length_field _ _ _ _ _ Hm Ho Hb H1) as K. unfold first_value. destruct (values (received (order m1)) cl) as [|v vs]; split; try congruence; intros _.
  - intros n N. apply (Proofs.SipLine.atoi_iff [] n) in N. discriminate.
  - cbn [hd]. rewrite (K v (or_introl eq_refl)). apply Proofs.SipLine.atoi_iff. apply atoi_itoa. destruct Hm as (_ & _ & L). pose proof (len_nonneg (s_payload s)). lia.
Qed.

(** * When the last name has no value *)
Lemma begins_app size ls1 : forall r ls2 used2 tail, Forall line_good ls1 -> Forall (fun t => len t + 2 <= size) ls1 -> begins size r ls2 used2 tail ->
  begins size (with_crlf ls1 ++ r) (ls1 ++ ls2) (with_crlf ls1 ++ used2) tail.
Proof.
  induction ls1 as [|t ls1 IH]; intros r ls2 used2 tail G L B; [exact B|]. apply Forall_cons_iff in G as [G1 G2]. apply Forall_cons_iff in L as [L1 L2]. rewrite with_crlf_cons, <- !app_assoc. cbn [app].
  replace (t ++ 13 :: 10 :: with_crlf ls1 ++ used2) with ((t ++ [13; 10]) ++ with_crlf ls1 ++ used2) by (now rewrite <- app_assoc). apply begins_line; auto.
Qed.
Lemma unfinished_text order s s1 text m1 : text_message s -> iteration order -> sip_bytes order s = Ok (s1, text) -> s_headers s1 = Some m1 ->
  ~ finished (order m1) -> s_payload s <> [] -> text = with_crlf (first_text s :: sent_lines (order m1)) ++ s_payload s.
Proof.
  intros Hm Ho Hb H1 Nf Np. destruct (visited _ _ _ _ _ Hm Ho Hb H1) as (Et & Th & Hfl & K).
  pose proof (sent_text (order m1) None) as St. cbn [opened app] in St. change (lines_of (sent None (order m1))) with (sent_lines (order m1)) in St.
  rewrite within_not in St; [|intros E; assert (X : In (cl, [itoa (len (s_payload s))]) (order m1)) by (apply K; now rewrite bytes_eqb_refl); rewrite E in X; destruct X|exact Nf].
  rewrite with_crlf_cons, <- St, Et. destruct (s_payload s); [congruence|]. cbn [blank_and_body]. rewrite <- !app_assoc. reflexivity.
Qed.
