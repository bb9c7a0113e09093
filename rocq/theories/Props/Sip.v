(** C77-C84, C86, C87, C89, C107-C109, C113: SIP fields, parameters and header maps. *)
From Coq Require Import String Permutation.
From Verif Require Import Base.Go Base.GoFacts Base.IO Base.Text Model.Sip Spec.Sip Proofs.Text Proofs.Sip Proofs.SipMsg Proofs.SipText Proofs.SipHeaders.
Import ListNotations. Local Open Scope list_scope. Local Open Scope Z_scope.
Local Ltac Zify.zify_post_hook ::= Z.div_mod_to_equations.

(** Decides the side conditions of the examples, which are about literals. *)
Ltac plain_chars :=
  unfold plain_args, plain_param, digest_args, digest_param, plain_name, without;
  repeat first [apply Forall_nil | apply Forall_cons | apply NoDup_nil | apply NoDup_cons | split];
  cbn; unfold graphic; intuition (discriminate || lia).
Lemma same_case_length a b : same_ignoring_case a b -> length a = length b.
Proof. induction 1; cbn; congruence. Qed.
Ltac same_letters :=
  repeat (apply Forall2_cons;
    [cbn; first [apply SL_same | match goal with |- same_letter ?a ?b => first [apply (SL_up a); lia | apply (SL_down b); lia] end]|]);
  apply Forall2_nil.

(** ** C77: Substring *)
Theorem C77_substring_total : forall v from to, substring v from to = Ok (between v (Z.max from 0) (Z.max to 0)).
Proof. exact substring_between. Qed.
Example C77_ex : substring (str "abcdef") (-3) 2 = Ok (str "ab") /\ substring (str "abc") 1 99 = Ok (str "bc") /\ substring (str "abc") 2 1 = Ok [].
Proof. repeat split. Qed.
Print Assumptions C77_substring_total.

(** ** C78: CSeq *)
Theorem C78_cseq_round_trip : forall id method src, without [32] id ->
  exists q, new_cseq (cseq_bytes (mkCseq id method src)) = Ok q /\ q_id q = id /\ q_method q = method.
Proof.
  intros id m src H. exists (mkCseq id m (id ++ 32 :: m)). split; [|auto]. apply new_cseq_split. eapply Forall_impl; [|exact H]. cbn. intros; lia.
Qed.
Theorem C78_cseq_text : forall s q, In 32 s -> new_cseq s = Ok q -> cseq_bytes q = s.
Proof.
  intros s q Hs Hq. destruct (cut 32 s) as [[a b]|] eqn:E.
  - apply cut_some in E. destruct E as [-> Ha]. rewrite new_cseq_split in Hq by assumption. injection Hq as <-. reflexivity.
  - apply cut_none_inv in E. rewrite Forall_forall in E. now elim (E _ Hs).
Qed.
Example C78_ex : exists q, new_cseq (str "314159 INVITE") = Ok q /\ q_id q = str "314159" /\ q_method q = str "INVITE" /\ cseq_bytes q = str "314159 INVITE".
Proof. eexists. repeat split. Qed.
Print Assumptions C78_cseq_round_trip.
Print Assumptions C78_cseq_text.

(** ** C79: request URIs. The parameter list is the map in the order in which it is iterated, so the theorem covers
    every order. *)
Theorem C79_request_round_trip : forall ty user host port params src,
  scheme ty -> without [64; 59] user -> without [58; 59] host -> without [59] port -> plain_args params ->
  exists r, new_request (request_bytes (mkReq ty user host port params src)) = Ok r /\
    r_type r = ty /\ r_user r = user /\ r_host r = host /\ r_port r = port /\ same_map (r_args r) params.
Proof.
  intros ty u h p a src H1 H2 H3 H4 H5. exists (mkReq ty u h p a (request_bytes (mkReq ty u h p a src))).
  split; [now apply (new_request_text ty u h p a src)|]. cbn. repeat split.
Qed.
Definition ex_params : args := [(str "transport", str "tcp"); (str "lr", [])].
Lemma ex_params_plain : plain_args ex_params.
Proof. plain_chars. Qed.
Example C79_ex : scheme (str "sips") /\ without [64; 59] (str "alice") /\ without [58; 59] (str "atlanta.com") /\ without [59] (str "5060") /\ plain_args ex_params /\
  request_bytes (mkReq (str "sips") (str "alice") (str "atlanta.com") (str "5060") ex_params []) = str "sips:alice@atlanta.com:5060;transport=tcp;lr".
Proof.
  split; [right; left; reflexivity|]. split; [plain_chars|]. split; [plain_chars|]. split; [plain_chars|]. split; [exact ex_params_plain|reflexivity].
Qed.
Print Assumptions C79_request_round_trip.

(** ** C80: Via *)
Theorem C80_via_round_trip : forall trans host port params src,
  transport trans -> without [58; 59; 32] host -> without [59; 32] port -> plain_args params ->
  exists v, new_via (via_bytes (mkVia trans host port params src)) = Ok v /\
    v_trans v = trans /\ v_host v = host /\ v_port v = port /\ same_map (v_args v) params.
Proof.
  intros t h p a src H1 H2 H3 H4. exists (mkVia t h p a (via_bytes (mkVia t h p a src))). split; [now apply (new_via_text t h p a src)|]. cbn. repeat split.
Qed.
Example C80_ex : transport (str "SCTP") /\ without [58; 59; 32] (str "pc33.atlanta.com") /\ without [59; 32] (str "5066") /\ plain_args [(str "branch", str "z9hG4bK776asdhds")] /\
  via_bytes (mkVia (str "SCTP") (str "pc33.atlanta.com") (str "5066") [(str "branch", str "z9hG4bK776asdhds")] []) = str "SIP/2.0/SCTP pc33.atlanta.com:5066;branch=z9hG4bK776asdhds".
Proof.
  split; [right; right; right; reflexivity|]. split; [plain_chars|]. split; [plain_chars|]. split; [plain_chars|reflexivity].
Qed.
Print Assumptions C80_via_round_trip.

(** ** C81: addresses without a display name, in brackets and bare *)
Theorem C81_user_round_trip : forall ty user host port params src,
  scheme ty -> without [64; 59; 62; 32] user -> without [58; 59; 62; 32] host -> without [59; 62; 32] port -> plain_args params ->
  exists u, new_user (user_bytes (mkUser ty [] user host port params src)) = Ok u /\
    u_type u = ty /\ u_name u = [] /\ u_user u = user /\ u_host u = host /\ u_port u = port /\ same_map (u_args u) params.
Proof.
  intros ty u h p a src H1 H2 H3 H4 H5. exists (mkUser ty [] u h p a (user_bytes (mkUser ty [] u h p a src))).
  split; [now apply (new_user_text ty u h p a src)|]. cbn. repeat split.
Qed.
(** The text of a request URI is also a valid From/To/Contact address. *)
Theorem C81_bare_uri : forall ty user host port params src,
  scheme ty -> without [64; 59; 62; 32] user -> without [58; 59; 62; 32] host -> without [59; 62; 32] port -> plain_args params ->
  exists u, new_user (request_bytes (mkReq ty user host port params src)) = Ok u /\
    u_type u = ty /\ u_name u = [] /\ u_user u = user /\ u_host u = host /\ u_port u = port /\ same_map (u_args u) params.
Proof.
  intros ty u h p a src H1 H2 H3 H4 H5. destruct (user_bare ty u h p a H1 H2 H3 H4) as [f Hf].
  exists (mkUser ty [] u h p a (request_bytes (mkReq ty u h p a src))). split; [|cbn; repeat split].
  change (request_bytes (mkReq ty u h p a src)) with (ty ++ 58 :: u ++ 64 :: h ++ port_part p ++ semicolon_string a).
  rewrite (new_user_of_loop _ _ _ _ _ _ _ _ Hf H5). reflexivity.
Qed.
(** Blanks before and after the closing bracket change nothing (sips/user.go:41 has "... > ;q=0.1"). *)
Theorem C81_blanks : forall ty user host port params i j,
  scheme ty -> without [64; 59; 62; 32] user -> without [58; 59; 62; 32] host -> without [59; 62; 32] port -> port <> [] -> plain_args params ->
  exists u, new_user ([60] ++ ty ++ [58] ++ user ++ [64] ++ host ++ [58] ++ port ++ repeat 32 i ++ [62] ++ repeat 32 j ++ semicolon_string params) = Ok u /\
    u_type u = ty /\ u_name u = [] /\ u_user u = user /\ u_host u = host /\ u_port u = port /\ same_map (u_args u) params.
Proof.
  intros ty u h p a i j H1 H2 H3 H4 Hp H5. destruct (user_spaced ty u h p a i j H1 H2 H3 H4) as [f Hf].
  destruct p as [|c p]; [congruence|]. eexists (mkUser ty [] u h (c :: p) a _). split; [|cbn; repeat split].
  apply (new_user_of_loop _ f a ty [] u h (c :: p)); [|exact H5]. cbn [app port_part] in *. rewrite <- ?app_assoc in Hf. exact Hf.
Qed.
Example C81_blanks_ex : exists u, new_user (str "<sip:watson@bell-telephone.com:5060 > ;q=0.1") = Ok u /\ u_port u = str "5060" /\ u_args u = [(str "q", str "0.1")].
Proof. eexists. repeat split. Qed.
Example C81_ex : exists u, new_user (str "<sip:34020000001320000001@192.168.1.102:5060>;tag=1086912856") = Ok u /\ u_host u = str "192.168.1.102" /\
  u_port u = str "5060" /\ u_args u = [(str "tag", str "1086912856")] /\
  user_bytes u = str "<sip:34020000001320000001@192.168.1.102:5060>;tag=1086912856".
Proof. eexists. repeat split. Qed.
Print Assumptions C81_user_round_trip.
Print Assumptions C81_bare_uri.
Print Assumptions C81_blanks.

(** ** C82: display names. No input yields a name; the rest of an address with a quoted name is read correctly. *)
Theorem C82_display_name_refuted : forall s u, new_user s = Ok u -> u_name u = [].
Proof. exact new_user_no_name. Qed.
Theorem C82_named_address_partial : forall name ty user host port params src,
  plain_name name -> scheme ty -> without [64; 59; 62; 32] user -> without [58; 59; 62; 32] host -> without [59; 62; 32] port -> plain_args params ->
  exists u, new_user (user_bytes (mkUser ty name user host port params src)) = Ok u /\
    u_type u = ty /\ u_user u = user /\ u_host u = host /\ u_port u = port /\ same_map (u_args u) params /\ u_name u = [].
Proof.
  intros n ty u h p a src [Hne [Hp Hw]] H1 H2 H3 H4 H5.
  set (t := user_bytes _). assert (Ht : exists f, user_loop f t FBase (str "sip") [] [] [] [] = Ok (semicolon_string a, ty, [], u, h, p)).
  { unfold t, user_bytes, name_part. cbn [u_name u_type u_user u_host u_port u_args]. destruct n as [|c n]; [congruence|].
    destruct (bytes_eqb (c :: n) (str "Anonymous")) eqn:Eq.
    - apply bytes_eqb_eq in Eq. rewrite Eq. destruct (user_address ty u h p a H1 H2 H3 H4) as [f Hf]. exists (10 + f)%nat. rewrite <- Hf. reflexivity.
    - destruct (user_named (c :: n) ty u h p a H1 H2 H3 H4) as [f Hf]; [eapply without_sub; [|exact Hw]; cbn; tauto|]. exists f. rewrite <- Hf. f_equal.
      rewrite quote_plain by (assumption || (eapply without_sub; [|exact Hw]; cbn; tauto)). repeat (rewrite <- ?app_assoc; cbn [app]). reflexivity. }
  destruct Ht as [f Hf]. exists (mkUser ty [] u h p a t). split; [|cbn; repeat split]. rewrite (new_user_of_loop _ _ _ _ _ _ _ _ Hf H5). reflexivity.
Qed.
Example C82_ex : plain_name (str "Mr. Watson") /\ plain_name (str "Anonymous") /\
  exists u, new_user (str """Mr. Watson"" <sip:watson@bell.com>;q=0.7") = Ok u /\ u_user u = str "watson" /\ u_name u = [].
Proof. split; [plain_chars|]. split; [plain_chars|]. eexists. repeat split. Qed.
Print Assumptions C82_display_name_refuted.
Print Assumptions C82_named_address_partial.

(** ** C83: the address parsers terminate. [OutOfFuel] is the model's outcome for a loop that runs longer than
    allotted; the allotment is linear in the input. *)
Theorem C83_parsers_terminate : forall s,
  new_user s <> OutOfFuel /\ new_request s <> OutOfFuel /\ new_via s <> OutOfFuel /\ new_cseq s <> OutOfFuel.
Proof.
  assert (PA : forall s, parse_args s <> OutOfFuel).
  { intros s. unfold parse_args. destruct (cut 59 s) as [[a t]|]; [|discriminate]. unfold parse_args_pairs.
    destruct (parse_pairs_cases (parse_list (trim_space t)) new_args) as [[-> _]|[[m ->] _]]; discriminate. }
  assert (PB : forall (r : bytes), match r with [] => Ok new_args | _ => parse_args r end <> OutOfFuel) by (intros [|c r]; [discriminate|apply PA]).
  intros s. split; [|split; [|split]].
  - unfold new_user. destruct (user_loop_total s) as [[[[[[r ty] na] us] ho] po] ->]. cbn [bind]. specialize (PB r). destruct (match r with [] => _ | _ => _ end); cbn [bind]; congruence.
  - unfold new_request. destruct (new_request_total s) as [[[[[r ty] us] ho] po] ->]. cbn [bind]. specialize (PB r). destruct (match r with [] => _ | _ => _ end); cbn [bind]; congruence.
  - unfold new_via. destruct (via_total (S (length s)) s FBase [] [] [] ltac:(lia)) as [[[[r tr] ho] po] ->]. cbn [bind]. specialize (PB r). destruct (match r with [] => _ | _ => _ end); cbn [bind]; congruence.
  - destruct (new_cseq_total s) as [q ->]. discriminate.
Qed.
Example C83_ex : exists u, new_user (str """"" <<<>>> ""\"" sip:") = Ok u.
Proof. eexists. reflexivity. Qed.
Print Assumptions C83_parsers_terminate.

(** ** C84: parameter parsing panics *)
(** Exactly when an element of the list ends in its equals sign, or in one quote after it ([broken]). *)
Theorem C84_params_never_panic_refuted : forall v, parse_args_pairs v = Panic <-> Exists broken (parse_list (trim_space v)).
Proof.
  intros v. unfold parse_args_pairs. destruct (parse_pairs_cases (parse_list (trim_space v)) new_args) as [[E H]|[[m E] H]]; rewrite E; split; intros; auto; try discriminate. contradiction.
Qed.
(** For every key: "key=" at the end of the parameters of any address makes each of the address parsers panic. *)
Theorem C84_empty_value_panics : forall key, key <> [] -> Forall graphic key -> without (str ",;=""") key ->
  new_user (str "<sip:a@b>;" ++ key ++ [61]) = Panic /\ new_request (str "sip:a@b;" ++ key ++ [61]) = Panic /\ new_via (str "SIP/2.0/UDP h;" ++ key ++ [61]) = Panic.
Proof.
  intros k Hne Hg Hw.
  assert (P : parse_args (59 :: k ++ [61]) = Panic).
  { unfold parse_args. cbn [cut]. change (59 =? 59) with true. cbv iota. apply C84_params_never_panic_refuted.
    assert (G : Forall graphic (k ++ [61])) by (apply Forall_app; split; [assumption|repeat constructor; unfold graphic; lia]).
    rewrite graphic_trim by assumption. unfold parse_list. rewrite runes_ascii by now apply graphic_ascii.
    rewrite <- (app_nil_r (k ++ [61])). rewrite parse_list_quiet.
    - cbn [parse_list_loop]. rewrite app_nil_r. destruct (rev (k ++ [61])) as [|x l] eqn:E.
      + apply (f_equal (@rev Z)) in E. rewrite rev_involutive in E. destruct k; discriminate.
      + rewrite <- E, rev_involutive, encode_ascii, graphic_trim by (assumption || now apply graphic_ascii). constructor.
        exists k. split; [eapply without_sub; [|exact Hw]; cbn; tauto|now left].
    - apply Forall_app. split; [|repeat constructor; lia]. rewrite Forall_forall in *. intros c Hc. pose proof (Hg c Hc) as G1. unfold graphic in G1. pose proof (without_in _ _ _ Hw Hc) as N. cbn in N. lia. }
  assert (Q : forall x : bytes, x = 59 :: k ++ [61] -> match x with [] => Ok new_args | _ => parse_args x end = Panic) by (intros x ->; exact P).
  split; [|split].
  - unfold new_user. destruct (user_loop_total (str "<sip:a@b>;" ++ k ++ [61])) as [x Hx]. rewrite Hx.
    assert (F : user_loop 40 (str "<sip:a@b>;" ++ k ++ [61]) FBase (str "sip") [] [] [] [] = Ok (59 :: k ++ [61], str "sip", [], str "a", str "b", [])) by reflexivity.
    pose proof (user_det _ _ _ _ _ _ _ _ _ _ _ Hx F) as ->. cbn [bind]. rewrite (Q _ eq_refl). reflexivity.
  - unfold new_request. destruct (new_request_total (str "sip:a@b;" ++ k ++ [61])) as [x Hx]. rewrite Hx.
    assert (F : req_loop 40 (str "sip:a@b;" ++ k ++ [61]) FBase (str "sip") [] [] [] = Ok (59 :: k ++ [61], str "sip", str "a", str "b", [])) by reflexivity.
    pose proof (req_det _ _ _ _ _ _ _ _ _ _ Hx F) as ->. cbn [bind]. rewrite (Q _ eq_refl). reflexivity.
  - unfold new_via. destruct (via_total (S (length (str "SIP/2.0/UDP h;" ++ k ++ [61]))) (str "SIP/2.0/UDP h;" ++ k ++ [61]) FBase [] [] [] ltac:(lia)) as [x Hx]. rewrite Hx.
    assert (F : via_loop 40 (str "SIP/2.0/UDP h;" ++ k ++ [61]) FBase [] [] [] = Ok (59 :: k ++ [61], str "UDP", str "h", [])) by reflexivity.
    pose proof (via_det _ _ _ _ _ _ _ _ _ Hx F) as ->. cbn [bind]. rewrite (Q _ eq_refl). reflexivity.
Qed.
(** ASCII text without quotes in which every equals sign is followed by a value never panics. *)
Theorem C84_params_partial : forall v, Forall (fun c => 0 <= c < 128) v -> without [34] v -> equals_followed v -> exists a, parse_args_pairs v = Ok a.
Proof.
  intros v Ha Hq He. unfold parse_args_pairs. destruct (parse_pairs_cases (parse_list (trim_space v)) new_args) as [[_ H]|[H _]]; [|assumption]. exfalso.
  rewrite trim_space_ascii in H by assumption.
  destruct (trim_by_parts is_space v) as [x [y [E Hy]]]. set (w := trim_by is_space v) in *.
  assert (Aw : Forall ascii w /\ without [34] w) by (unfold without in Hq; rewrite E, !Forall_app in Ha, Hq; split; [apply Ha|apply Hq]). destruct Aw as [Aw Qw].
  assert (Ew : equals_followed w).
  { rewrite E in He. apply equals_drop in He. apply equals_app in He; [assumption|]. destruct y as [|d y]; [now left|]. right. intros d' u Eq [Hg _]. injection Eq as <- <-.
    apply Forall_inv in Hy. rewrite space_ascii in Hy by (unfold graphic, ascii in *; lia). unfold graphic in Hg. apply Bool.orb_prop in Hy. rewrite btw_spec in Hy. lia. }
  unfold parse_list in H. rewrite runes_ascii in H by assumption.
  pose proof (parse_list_safe w [] [] Aw (Forall_nil _) Qw (Forall_nil _) Ew (Forall_nil _)) as S. rewrite Exists_exists in H. destruct H as [e [He1 He2]]. rewrite Forall_forall in S. now apply (S e).
Qed.
Example C84_ex : Exists broken (parse_list (trim_space (str "a=1;branch="))) /\ parse_args_pairs (str "a=1;branch=") = Panic /\ parse_args_pairs (str "a=""") = Panic /\
  equals_followed (str "a=1, b; c==x") /\ parse_args_pairs (str "a=1, b; c==x") = Ok [(str "a", str "1"); (str "b", []); (str "c", str "=x")].
Proof.
  split; [|split; [reflexivity|split; [reflexivity|split; [|reflexivity]]]].
  - right. left. exists (str "branch"). split; [plain_chars|now left].
  - cbn. repeat split; intros; try discriminate; do 2 eexists; (split; [reflexivity|unfold graphic; lia]).
Qed.
Print Assumptions C84_params_never_panic_refuted.
Print Assumptions C84_empty_value_panics.
Print Assumptions C84_params_partial.

(** ** C86: header names are case-insensitive *)
Theorem C86_set_get : forall m name v, exists h', set_first (Some m) name v = Ok h' /\
  (forall name', same_ignoring_case name name' -> get_first h' name' = v /\ get_header h' name' = [v]) /\
  (forall name', Forall (fun c => 0 <= c < 128) name -> Forall (fun c => 0 <= c < 128) name' -> ~ same_ignoring_case name name' ->
     hlook (Some m) (to_lower name') <> Some [] ->
     get_first h' name' = get_first (Some m) name' /\ get_header h' name' = get_header (Some m) name').
Proof.
  intros m n v. eexists. split; [reflexivity|]. split.
  - intros n' Hs. unfold get_first, get_header, hlook. rewrite <- (same_case_lower _ _ Hs), mget_mset_same. auto.
  - intros n' Ha Ha' Hs He. assert (Hne : to_lower n' <> to_lower n) by (intros C; apply Hs; apply to_lower_inj; auto).
    unfold get_first, get_header, hlook in *. rewrite mget_mset_other by assumption. destruct (mget (to_lower n') m) as [[|w l]|]; auto. congruence.
Qed.
Example C86_ex : same_ignoring_case (str "Call-ID") (str "cALL-id") /\ ~ same_ignoring_case (str "Call-ID") (str "via") /\
  exists h, set_first (Some [(str "via", [str "x"])]) (str "Call-ID") (str "77") = Ok h /\ get_first h (str "cALL-id") = str "77" /\ get_first h (str "VIA") = str "x".
Proof.
  split; [unfold same_ignoring_case; same_letters|]. split; [|eexists; repeat split]. intros C. apply same_case_length in C. discriminate.
Qed.
Print Assumptions C86_set_get.

(** ** C87: compact names are not recognised *)
(** Whatever a message holds under a compact name, its long name finds nothing (unless the long name is there too). *)
Theorem C87_compact_names_refuted : forall long short, In (long, short) compact_table -> forall m v,
  ~ In long (map fst m) -> get_first (Some (mset short [v] m)) long = [] /\ get_header (Some (mset short [v] m)) long = [].
Proof.
  assert (F : Forall (fun p => to_lower (fst p) = fst p /\ fst p <> snd p) compact_table) by (repeat constructor; discriminate).
  intros long short Hin m v Hn. rewrite Forall_forall in F. destruct (F _ Hin) as [Hl Hd]. cbn [fst snd] in *. unfold get_first, get_header, hlook. rewrite Hl.
  rewrite mget_mset_other by assumption. apply mget_none in Hn. rewrite Hn. auto.
Qed.
(** The line "v: value" ends up under the name "v". *)
Theorem C87_compact_line_refuted : forall long short, In (long, short) compact_table -> forall v, one_line v ->
  get_first (s_headers (fst (parse_header (short ++ [58; 32] ++ v) new_sip))) long = [].
Proof.
  intros long short Hin v Hv. assert (F : Forall (fun p => lower_name (snd p)) compact_table).
  { unfold compact_table. unfold lower_name. plain_chars. }
  rewrite Forall_forall in F. pose proof (F _ Hin) as Hs. cbn [snd] in Hs. pose proof (parse_header_plain short v [] new_sip Hs Hv eq_refl (fun x => x)) as P.
  unfold hline, hvalue in P. cbn [fst snd] in P. rewrite P. cbn [fst with_last with_headers s_headers app]. apply (C87_compact_names_refuted long short Hin [] v). intros [].
Qed.
(** Only if the long name is stored without any value is the compact name consulted. *)
Theorem C87_empty_entry_partial : forall long short, In (long, short) compact_table -> forall m v vs,
  mget long m = Some [] -> mget short m = Some (v :: vs) -> get_first (Some m) long = v /\ get_header (Some m) long = v :: vs.
Proof.
  assert (F : Forall (fun p => to_lower (fst p) = fst p /\ compact_of (fst p) = snd p) compact_table) by (repeat constructor).
  intros long short Hin m v vs H1 H2. rewrite Forall_forall in F. destruct (F _ Hin) as [Hl Hd]. cbn [fst snd] in *. unfold get_first, get_header, hvals, hlook. rewrite Hl, H1, Hd, H2. auto.
Qed.
(** A name that has no compact form and is stored without any value is looked up under the empty name. *)
Theorem C87_empty_entry_other : forall name, ~ In (to_lower name) (map fst compact_table) -> forall m, mget (to_lower name) m = Some [] ->
  get_header (Some m) name = match mget [] m with Some l => l | None => [] end /\
  get_first (Some m) name = match mget [] m with Some (v :: _) => v | _ => [] end.
Proof.
  intros name Hn m Hm. assert (E : compact_of (to_lower name) = []).
  { unfold compact_of. assert (H : ~ In (to_lower name) (map fst compact_names)).
    { intros H. apply Hn. revert H. unfold compact_names, compact_table. cbn [map fst In]. intuition auto. }
    apply mget_none in H. rewrite H. reflexivity. }
  unfold get_first, get_header, hvals, hlook. rewrite Hm, E. destruct (mget [] m) as [[|v l]|]; auto.
Qed.
Example C87_other_ex : let m := [(str "date", []); ([], [str "x"])] in
  ~ In (to_lower (str "Date")) (map fst compact_table) /\ (mget (to_lower (str "Date")) m = Some []) /\ get_first (Some m) (str "Date") = str "x".
Proof. cbv zeta. split; [|vm_compute; auto]. intros H. vm_compute in H. repeat (destruct H as [H|H]; [discriminate|]). exact H. Qed.
Example C87_ex : In (str "via", str "v") compact_table /\ one_line (str "SIP/2.0/UDP h") /\
  get_first (Some [(str "to", []); (str "t", [str "x"])]) (str "To") = str "x".
Proof.
  split; [cbn; tauto|]. split; [|reflexivity]. split; [plain_chars|]. split; intros t C; [discriminate|].
  apply (f_equal (fun s => last s 0)) in C. rewrite last_last in C. discriminate.
Qed.
Print Assumptions C87_compact_names_refuted.
Print Assumptions C87_compact_line_refuted.
Print Assumptions C87_empty_entry_partial.
Print Assumptions C87_empty_entry_other.

(** ** C89: methods and versions *)
Theorem C89_methods : forall m, 1 <= m <= 15 -> forall s, same_ignoring_case s (method_string m) -> get_method s = Ok m.
Proof. intros m Hm s Hs. unfold get_method. rewrite (same_case_upper _ _ Hs). apply method_ok. assumption. Qed.
Theorem C89_versions : forall v, v = 1 \/ v = 2 -> forall s, same_ignoring_case s (version_string v) -> get_version s = Ok v.
Proof. intros v Hv s Hs. unfold get_version. rewrite (same_case_upper _ _ Hs). now apply version_ok. Qed.
(** The 15 names are those of the RFCs and different from each other. *)
Theorem C89_names : map method_string [1; 2; 3; 4; 5; 6; 7; 8; 9; 10; 11; 12; 13; 14; 15] =
  map str ["INVITE"; "ACK"; "BYE"; "CANCEL"; "OPTIONS"; "REGISTER"; "PRACK"; "SUBSCRIBE"; "NOTIFY"; "PUBLISH"; "INFO"; "REFER"; "MESSAGE"; "UPDATE"; "PING"]%string /\
  version_string 1 = str "SIP/1.0" /\ version_string 2 = str "SIP/2.0".
Proof. repeat split. Qed.
(** Every other method has the same text, which no reader accepts; every other version reads as 2.0. *)
Theorem C89_others : (forall m, ~ 1 <= m <= 15 -> method_string m = str "Unknown method") /\ get_method (str "Unknown method") = Err EOther /\
  forall v, v <> 1 -> version_string v = str "SIP/2.0".
Proof.
  split; [|split; [reflexivity|]].
  - intros m H. unfold method_string. destruct ((1 <=? m) && (m <=? 15)) eqn:E; [lia|reflexivity].
  - intros v H. unfold version_string. replace (v =? 1) with false by lia. reflexivity.
Qed.
Print Assumptions C89_others.
(** Exactly the strings that read as a name, ASCII case aside, are accepted - but U+0131 reads as I and U+017F as S. *)
Theorem C89_methods_exact : forall s m, get_method s = Ok m <-> 1 <= m <= 15 /\ reads_as s (method_string m).
Proof. exact get_method_iff. Qed.
Theorem C89_methods_reject : forall s, (forall m, 1 <= m <= 15 -> ~ reads_as s (method_string m)) -> get_method s = Err EOther.
Proof. intros s H. apply get_method_err. intros m E. apply get_method_iff in E. destruct E as [E1 E2]. now apply (H m). Qed.
Theorem C89_versions_exact : forall s v, get_version s = Ok v <-> (v = 1 \/ v = 2) /\ reads_as s (version_string v).
Proof. exact get_version_iff. Qed.
(** So for ASCII strings the property holds in full. *)
Theorem C89_ascii_partial : forall s m, Forall (fun c => 0 <= c < 128) s -> (get_method s = Ok m <-> 1 <= m <= 15 /\ same_ignoring_case s (method_string m)).
Proof.
  intros s m Ha. split.
  - intros H. apply get_method_iff in H. destruct H as [Hm H]. split; [assumption|]. clear Hm. induction H as [|c s n H IH|c s n Hc H IH|s n H IH|s n H IH].
    + constructor.
    + constructor; [constructor|]. apply IH. now inversion Ha.
    + constructor; [now constructor|]. apply IH. now inversion Ha.
    + inversion Ha; lia.
    + inversion Ha; lia.
  - intros [Hm H]. now apply C89_methods.
Qed.
Theorem C89_others_rejected_refuted : exists s, (forall m, 1 <= m <= 15 -> ~ same_ignoring_case s (method_string m)) /\ get_method s = Ok 1.
Proof.
  exists (196 :: 177 :: str "NVITE"). split; [|reflexivity]. intros m Hm C.
  assert (m = 1 \/ m = 2 \/ m = 3 \/ m = 4 \/ m = 5 \/ m = 6 \/ m = 7 \/ m = 8 \/ m = 9 \/ m = 10 \/ m = 11 \/ m = 12 \/ m = 13 \/ m = 14 \/ m = 15) as D by lia.
  repeat (destruct D as [-> | D]; [inversion C as [|? ? ? ? Hl _]; subst; inversion Hl; lia|]). subst. inversion C as [|? ? ? ? Hl _]; subst; inversion Hl; lia.
Qed.
Example C89_ex : same_ignoring_case (str "inVite") (method_string 1) /\ get_method (str "inVite") = Ok 1 /\ get_version (str "sip/2.0") = Ok 2 /\ get_method (str "INVITE ") = Err EOther.
Proof.
  split; [|repeat split]. change (method_string 1) with (str "INVITE"). unfold same_ignoring_case. same_letters.
Qed.
Print Assumptions C89_methods.
Print Assumptions C89_versions.
Print Assumptions C89_names.
Print Assumptions C89_methods_exact.
Print Assumptions C89_methods_reject.
Print Assumptions C89_versions_exact.
Print Assumptions C89_ascii_partial.
Print Assumptions C89_others_rejected_refuted.

(** ** C107: digest credentials *)
(** The header value "Digest " (in any case) followed by CommaString of the parameters gives the parameters back; the
    values may hold quotes, backslashes, commas and semicolons. *)
Theorem C107_digest_round_trip : forall prefix params, same_ignoring_case prefix (str "digest ") -> digest_args params ->
  exists a, new_auth (prefix ++ comma_string params) = Ok a /\ same_map (a_args a) params.
Proof.
  intros pre a Hpre Ha. exists (mkAuth a (pre ++ comma_string a)). split; [|intros k; reflexivity]. apply new_auth_digest; [assumption| |].
  - apply same_case_length in Hpre. unfold len. rewrite Hpre. reflexivity.
  - rewrite (same_case_lower _ _ Hpre). reflexivity.
Qed.
Theorem C107_get_authorization : forall m params h, digest_args params -> set_first (Some m) (str "Authorization") (str "Digest " ++ comma_string params) = Ok h ->
  exists a, get_authorization h = Ok a /\ same_map (a_args a) params.
Proof.
  intros m a h Ha E. injection E as <-. unfold get_authorization, get_first, hlook. change (to_lower (str "Authorization")) with (str "authorization"). change (to_lower (str "authorization")) with (str "authorization").
  rewrite mget_mset_same. eexists. split; [apply (new_auth_digest a (str "Digest ")); [assumption|reflexivity|reflexivity]|]. intros k. reflexivity.
Qed.
Definition ex_digest : args := [(str "username", str "Bob ""the"" Builder, \;"); (str "nonce", [])].
Example C107_ex : digest_args ex_digest /\ comma_string ex_digest = str "username=""Bob \""the\"" Builder, \\;"", nonce=""""" /\
  new_auth (str "DIGEST " ++ comma_string ex_digest) = Ok (mkAuth ex_digest (str "DIGEST " ++ comma_string ex_digest)).
Proof.
  split; [|split; vm_compute; reflexivity]. plain_chars.
Qed.
Print Assumptions C107_digest_round_trip.
Print Assumptions C107_get_authorization.

(** ** C108: CopyFrom *)
Lemma copy_from_some names : forall m src, exists m', copy_from (Some m) src names = Ok (Some m').
Proof. induction names as [|n names IH]; intros m src; cbn [copy_from]; [eauto|]. cbn [set_first bind]. apply IH. Qed.
Lemma copy_from_look names : forall m src m' k, copy_from (Some m) src names = Ok (Some m') -> Forall (fun n => to_lower n <> k) names -> mget k m' = mget k m.
Proof.
  induction names as [|n names IH]; intros m src m' k E H; cbn [copy_from set_first bind] in E; [injection E as <-; reflexivity|]. inversion H; subst.
  rewrite (IH _ _ _ _ E) by assumption. apply mget_mset_other. congruence.
Qed.
(** Every named header of the target equals the source's; the others stay. The target is another map than the source. *)
Theorem C108_copy_from : forall m src names, exists m', copy_from (Some m) src names = Ok (Some m') /\
  (forall n, In n names -> get_first (Some m') n = get_first src n) /\
  (forall k, ~ In k (map to_lower names) -> mget k m' = mget k m).
Proof.
  intros m src names. destruct (copy_from_some names m src) as [m' E]. exists m'. split; [assumption|]. split.
  - revert m E. induction names as [|x names IH]; intros m E n Hn; [destruct Hn|]. cbn [copy_from set_first bind] in E.
    destruct (in_dec (list_eq_dec Z.eq_dec) n names) as [Hi|Hi]; [now apply (IH _ E)|]. destruct Hn as [-> |Hn]; [|contradiction].
    destruct (in_dec (list_eq_dec Z.eq_dec) (to_lower n) (map to_lower names)) as [Hj|Hj].
    + apply in_map_iff in Hj. destruct Hj as [y [Ey Hy]]. pose proof (IH _ E y Hy) as G. unfold get_first in *. rewrite Ey in G. exact G.
    + unfold get_first at 1, hlook. rewrite (copy_from_look names _ _ _ _ E), mget_mset_same; [reflexivity|]. apply Forall_forall. intros y Hy C. apply Hj. rewrite <- C. now apply in_map.
  - intros k Hk. apply (copy_from_look _ _ _ _ _ E). apply Forall_forall. intros y Hy C. apply Hk. rewrite <- C. now apply in_map.
Qed.
Example C108_ex : exists m', copy_from (Some [(str "via", [str "old"]); (str "cseq", [str "1 ACK"])]) (Some [(str "via", [str "a"; str "b"]); (str "to", [str "x"])]) [str "Via"; str "TO"] = Ok (Some m') /\
  get_first (Some m') (str "via") = str "a" /\ get_first (Some m') (str "to") = str "x" /\ get_first (Some m') (str "CSeq") = str "1 ACK".
Proof. eexists. repeat split. Qed.
Print Assumptions C108_copy_from.

(** ** C109: addresses and request URIs convert into each other *)
Theorem C109_user_request_user : forall u, request_to_user (user_to_request u) = mkUser (u_type u) [] (u_user u) (u_host u) (u_port u) (u_args u) (u_src u).
Proof. reflexivity. Qed.
(** The text of the request made from an address is what stands between the brackets of the address. *)
Theorem C109_to_request_text : forall ty user host port src,
  user_bytes (mkUser ty [] user host port [] src) = [60] ++ request_bytes (user_to_request (mkUser ty [] user host port [] src)) ++ [62].
Proof. intros. unfold user_bytes, request_bytes, user_to_request. cbn [u_name u_type u_user u_host u_port u_args r_type r_user r_host r_port r_args name_part semicolon_string flat_map app]. repeat (rewrite <- ?app_assoc; cbn [app]). reflexivity. Qed.
Theorem C109_to_user_reads : forall ty user host port params src,
  scheme ty -> without [64; 59; 62; 32] user -> without [58; 59; 62; 32] host -> without [59; 62; 32] port -> plain_args params ->
  exists u, new_user (user_bytes (request_to_user (mkReq ty user host port params src))) = Ok u /\
    same_map (r_args (user_to_request u)) params /\ r_type (user_to_request u) = ty /\ r_user (user_to_request u) = user /\ r_host (user_to_request u) = host /\ r_port (user_to_request u) = port.
Proof.
  intros ty u h p a src H1 H2 H3 H4 H5. destruct (C81_user_round_trip ty u h p a src H1 H2 H3 H4 H5) as [x [E [E1 [_ [E3 [E4 [E5 E6]]]]]]].
  exists x. split; [exact E|]. cbn. auto 10.
Qed.
Example C109_ex : exists u, new_user (user_bytes (request_to_user (mkReq (str "sip") (str "bob") (str "h") [] ex_params []))) = Ok u /\ r_user (user_to_request u) = str "bob".
Proof. eexists. repeat split. Qed.
Print Assumptions C109_user_request_user.
Print Assumptions C109_to_request_text.
Print Assumptions C109_to_user_reads.

(** ** C113: typed setters and getters of the header map *)
Lemma set_get_same m n v h : set_first (Some m) n v = Ok h -> to_lower n = n -> get_first h n = v.
Proof. intros E Hn. injection E as <-. unfold get_first, hlook. rewrite !Hn, mget_mset_same. reflexivity. Qed.
Theorem C113_typed_users : forall ty user host port params src m h,
  scheme ty -> without [64; 59; 62; 32] user -> without [58; 59; 62; 32] host -> without [59; 62; 32] port -> plain_args params ->
  let u := mkUser ty [] user host port params src in
  let good r := exists u', r = Ok u' /\ u_type u' = ty /\ u_user u' = user /\ u_host u' = host /\ u_port u' = port /\ same_map (u_args u') params in
  (set_sip_from (Some m) u = Ok h -> good (get_sip_from h)) /\
  (set_sip_to (Some m) u = Ok h -> good (get_sip_to h)) /\
  (set_sip_contact (Some m) u = Ok h -> good (get_sip_contact h)).
Proof.
  intros ty us ho p a src m h H1 H2 H3 H4 H5 u good. pose proof (new_user_text ty us ho p a src H1 H2 H3 H4 H5) as T. fold u in T. cbv zeta in T. unfold good.
  repeat split; intros E; (unfold get_sip_from, get_sip_to, get_sip_contact; rewrite (set_get_same _ _ _ _ E) by reflexivity; eexists; split; [exact T|]; cbn; repeat split).
Qed.
Theorem C113_typed_others : forall m,
  (forall id method src h, without [32] id -> set_sip_cseq (Some m) (mkCseq id method src) = Ok h -> exists q, get_sip_cseq h = Ok q /\ q_id q = id /\ q_method q = method) /\
  (forall trans host port params src h, transport trans -> without [58; 59; 32] host -> without [59; 32] port -> plain_args params ->
     set_sip_via (Some m) (mkVia trans host port params src) = Ok h ->
     exists v, get_sip_via h = Ok v /\ v_trans v = trans /\ v_host v = host /\ v_port v = port /\ same_map (v_args v) params) /\
  (forall n h, - 9223372036854775808 <= n <= 9223372036854775807 -> set_content_length (Some m) n = Ok h -> get_content_length h = Ok n) /\
  (forall v h, set_call_id (Some m) v = Ok h -> get_call_id h = v).
Proof.
  intros m. repeat split.
  - intros id me src h Hid E. unfold get_sip_cseq. rewrite (set_get_same _ _ _ _ E) by reflexivity. now apply C78_cseq_round_trip.
  - intros t ho p a src h H1 H2 H3 H4 E. unfold get_sip_via. rewrite (set_get_same _ _ _ _ E) by reflexivity. now apply C80_via_round_trip.
  - intros n h Hn E. unfold get_content_length. rewrite (set_get_same _ _ _ _ E) by reflexivity. now apply atoi_itoa.
  - intros v h E. unfold get_call_id. apply (set_get_same _ _ _ _ E). reflexivity.
Qed.
Lemma set_get_case m k nm name v h : set_first (Some m) k v = Ok h -> to_lower nm = to_lower k -> same_ignoring_case nm name -> get_first h name = v.
Proof. intros E Hk Hs. injection E as <-. unfold get_first, hlook. rewrite <- (same_case_lower _ _ Hs), Hk, mget_mset_same. reflexivity. Qed.
(** Each of the other setters is visible under its header name, in any case. *)
Theorem C113_named_setters : forall m n v h name,
  (set_max_forwards (Some m) n = Ok h -> same_ignoring_case (str "Max-Forwards") name -> get_first h name = itoa n) /\
  (set_reason_phrase (Some m) v = Ok h -> same_ignoring_case (str "Reason-Phrase") name -> get_first h name = v) /\
  (set_supported (Some m) v = Ok h -> same_ignoring_case (str "Supported") name -> get_first h name = v) /\
  (set_subject (Some m) v = Ok h -> same_ignoring_case (str "Subject") name -> get_first h name = v) /\
  (set_content_type (Some m) v = Ok h -> same_ignoring_case (str "Content-Type") name -> get_first h name = v) /\
  (set_allow (Some m) v = Ok h -> same_ignoring_case (str "Allow") name -> get_first h name = v).
Proof.
  intros m n v h name. repeat split; intros E Hs; (eapply set_get_case; [exact E| |exact Hs]; vm_compute; reflexivity).
Qed.
Example C113_ex : exists h, set_sip_via (Some []) (mkVia (str "UDP") (str "h") (str "5060") [(str "branch", str "z")] []) = Ok h /\ get_sip_via h = Ok (mkVia (str "UDP") (str "h") (str "5060") [(str "branch", str "z")] (str "SIP/2.0/UDP h:5060;branch=z")).
Proof. eexists. repeat split. Qed.
Print Assumptions C113_typed_users.
Print Assumptions C113_typed_others.
Print Assumptions C113_named_setters.
(** Every getter reads the header of its own name, however the name was written when it was set. *)
Theorem C113_getters : forall m name v h, set_first (Some m) name v = Ok h ->
  (same_ignoring_case (str "From") name -> get_sip_from h = new_user v) /\
  (same_ignoring_case (str "To") name -> get_sip_to h = new_user v) /\
  (same_ignoring_case (str "Contact") name -> get_sip_contact h = new_user v) /\
  (same_ignoring_case (str "CSeq") name -> get_sip_cseq h = new_cseq v) /\
  (same_ignoring_case (str "Via") name -> get_sip_via h = new_via v) /\
  (same_ignoring_case (str "Content-Length") name -> get_content_length h = atoi v) /\
  (same_ignoring_case (str "Call-ID") name -> get_call_id h = v) /\
  (same_ignoring_case (str "Authorization") name -> get_authorization h = new_auth v) /\
  (same_ignoring_case (str "Expires") name -> get_expires h = v).
Proof.
  intros m name v h E.
  assert (G : forall n k, to_lower n = to_lower k -> same_ignoring_case n name -> get_first h k = v).
  { intros n k Hn Hs. injection E as <-. unfold get_first, hlook. rewrite <- (same_case_lower _ _ Hs), Hn, mget_mset_same. reflexivity. }
  repeat split; intros Hs; unfold get_sip_from, get_sip_to, get_sip_contact, get_sip_cseq, get_sip_via, get_content_length, get_call_id, get_authorization, get_expires;
    (erewrite G; [reflexivity| |exact Hs]; vm_compute; reflexivity).
Qed.
Print Assumptions C113_getters.
Example C113_getters_ex : exists h, set_first (Some []) (str "EXPIRES") (str "60") = Ok h /\ same_ignoring_case (str "Expires") (str "EXPIRES") /\ get_expires h = str "60".
Proof. eexists. split; [reflexivity|]. split; [vm_compute; repeat (constructor; [first [apply SL_same|apply (SL_down 88); lia|match goal with |- same_letter ?x ?y => apply (SL_down y); lia end]|]); constructor|reflexivity]. Qed.
