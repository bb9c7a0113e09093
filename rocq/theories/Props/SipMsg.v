(** C85, C88, C90-C94, C106, C110-C112, C114-C116: SIP messages. *)
From Coq Require Import String Permutation.
From Verif Require Import Base.Go Base.GoFacts Base.IO Base.Text Model.Sip Spec.Sip Proofs.Text Proofs.Sip Proofs.SipMsg Proofs.SipRead Proofs.SipText Proofs.SipParse Proofs.SipMore Proofs.SipHeaders Proofs.SipFields Props.Sip.
Import ListNotations. Local Open Scope list_scope. Local Open Scope Z_scope.
Local Ltac Zify.zify_post_hook ::= Z.div_mod_to_equations.

(** ** C85: ParseHeader. Over all histories of a new object: it panics exactly when a continuation line comes before any
    header line. *)
Theorem C85_header_lines_never_panic_refuted : forall lines,
  snd (feed lines new_sip) = Panic <-> exists before line after, lines = before ++ line :: after /\ continuation line /\ ~ Exists header_line before.
Proof. exact feed_panic_iff. Qed.
Theorem C85_after_a_header_partial : forall first lines, header_line first -> snd (feed (first :: lines) new_sip) = Ok tt.
Proof.
  intros f ls Hf. pose proof (feed_hist (f :: ls) new_sip False hist_new) as F. pose proof (C85_header_lines_never_panic_refuted (f :: ls)) as P.
  destruct (feed (f :: ls) new_sip) as [s [[]|e| |]]; try contradiction; [reflexivity|]. cbn [snd] in P. destruct (proj1 P eq_refl) as [a [l [b [E [H1 H2]]]]]. exfalso.
  destruct a as [|x a]; injection E as <- ->; [destruct Hf as [Hf _]; contradiction|]. apply H2. now constructor.
Qed.
Example C85_ex : snd (feed [str "no colon"; str " folded"] new_sip) = Panic /\ continuation (str " folded") /\ ~ Exists header_line [str "no colon"] /\ header_line (str "a:b").
Proof.
  split; [reflexivity|]. split; [eexists; left; reflexivity|]. split.
  - intros C. inversion C as [? ? [_ D]|? ? D]; subst; [cbn in D; intuition lia|inversion D].
  - split; [intros [t [D|D]]; discriminate|cbn; tauto].
Qed.
Print Assumptions C85_header_lines_never_panic_refuted.
Print Assumptions C85_after_a_header_partial.

(** ** C88: header maps *)
(** One plain value per name: the lines Bytes writes, in whatever order, give the map back. *)
Theorem C88_headers_partial : forall m order, plain_headers m -> iteration order ->
  exists lines s, header_bytes (order m) = with_crlf lines /\ Forall (fun l => l <> [] /\ without [13; 10] l) lines /\
    feed lines new_sip = (s, Ok tt) /\ (forall k, hlook (s_headers s) k = mget k m).
Proof.
  intros m order Hm Ho. pose proof (perm_plain _ _ (Ho m) Hm) as [Hn Hp].
  destruct (run_headers (order m) 1 new_sip [] Hp Hn eq_refl (fun _ _ x => x) ltac:(lia)) as [s [E1 [E2 _]]]. cbn [app] in E2.
  exists (map hline (order m)), s. split; [now apply header_bytes_lines|]. split; [apply Forall_map; eapply Forall_impl; [|exact Hp]; intros p; apply hline_ok|]. split.
  - assert (G : forall ls count x, 0 < count -> run_lines count ls x = feed ls x).
    { clear. induction ls as [|l ls IH]; intros c x Hc; cbn [run_lines feed]; [reflexivity|]. replace (c =? 0) with false by lia. destruct (parse_header l x) as [x' [u|e| |]]; try reflexivity. apply IH. lia. }
    rewrite <- (G _ 1) by lia. exact E1.
  - intros k. rewrite E2. cbn [hlook]. apply mget_perm; [apply Hm|apply Ho].
Qed.
(** Two values of one name come back as a single one, always. *)
Theorem C88_two_values_refuted : forall k v1 v2, lower_name k -> one_line v1 -> v2 <> [] -> Forall graphic v2 ->
  exists lines s, header_bytes [(k, [v1; v2])] = with_crlf lines /\ Forall (fun l => l <> [] /\ without [13; 10] l) lines /\
    feed lines new_sip = (s, Ok tt) /\ hlook (s_headers s) k = Some [v1 ++ [32] ++ v2].
Proof.
  intros k v1 v2 Hk Hv1 Hne Hg. pose proof (lower_name_lower k Hk) as Hlow.
  assert (Hf : plain_field (mkField k v1 [(32, v2)])).
  { split; [|split; [assumption|repeat constructor; auto]]. destruct Hk as [H1 H2]. split; [assumption|]. cbn [f_name]. eapply Forall_impl; [|exact H2]. cbn. tauto. }
  destruct (feed_fields [mkField k v1 [(32, v2)]] new_sip [] (Forall_cons _ Hf (Forall_nil _)) eq_refl) as [s [m [E1 [E2 E3]]]].
  exists (field_lines (mkField k v1 [(32, v2)])), s. split; [|split; [|split]].
  - unfold header_bytes, with_crlf, field_lines. cbn [flat_map map f_name f_value f_more fst snd app]. rewrite !app_nil_r. repeat (rewrite <- ?app_assoc; cbn [app]). reflexivity.
  - unfold field_lines. cbn [f_name f_value f_more map fst snd]. destruct Hk as [H1 H2]. destruct Hv1 as [Hv1 _]. repeat constructor; try discriminate.
    + intros C. destruct k; [congruence|discriminate].
    + apply without_app. split; [|constructor; [cbn; lia|constructor; [cbn; lia|assumption]]]. eapply Forall_impl; [|exact H2]. cbn. unfold graphic. intros; lia.
    + cbn; lia.
    + eapply Forall_impl; [|exact Hg]. cbn. unfold graphic. intros; lia.
  - cbn [flat_map] in E1. rewrite app_nil_r in E1. exact E1.
  - specialize (E3 k). cbn [filter f_name] in E3. rewrite Hlow, bytes_eqb_refl in E3. rewrite E2. unfold hvals in E3. cbn [hlook app map field_text f_value f_more flat_map snd] in E3 |- *.
    rewrite app_nil_r in E3. cbn [mget app] in E3. destruct (mget k m) as [x|]; [congruence|discriminate].
Qed.
(** A name without values swallows the line that follows it. *)
Theorem C88_no_value_refuted : forall k k' v', lower_name k -> lower_name k' -> one_line v' -> k <> k' ->
  exists line s, header_bytes [(k, []); (k', [v'])] = with_crlf [line] /\ feed [line] new_sip = (s, Ok tt) /\ hlook (s_headers s) k' = None.
Proof.
  intros k k' v' Hk Hk' [Hv' [Hv1 Hv2]] Hne. pose proof (lower_name_lower k Hk) as Hlow. destruct Hk as [H1 H2]. destruct Hk' as [H1' H2'].
  destruct k as [|c k]; [congruence|]. pose proof (Forall_inv H2) as [Hg _]. unfold graphic in Hg.
  exists ((c :: k) ++ 58 :: k' ++ [58; 32] ++ v'). unfold header_bytes, with_crlf. cbn [flat_map fst snd app]. eexists. split; [|split].
  - rewrite !app_nil_r. repeat (rewrite <- ?app_assoc; cbn [app]). reflexivity.
  - cbn [feed]. unfold parse_header at 1. replace ((c =? 9) || (c =? 32)) with false by lia.
    change (c :: k ++ 58 :: k' ++ 58 :: 32 :: v') with ((c :: k) ++ 58 :: k' ++ 58 :: 32 :: v').
    rewrite cut_app by (eapply Forall_impl; [|exact H2]; cbn; intros; lia). cbn [s_headers new_sip]. reflexivity.
  - cbn [with_last with_headers s_headers hlook]. rewrite mget_mset_other; [reflexivity|].
    assert (T1 : trim_sp (c :: k) = c :: k) by (unfold trim_sp; apply trim_by_solid, solid_none; eapply Forall_impl; [|exact H2]; cbn; intros d [Hd _]; unfold graphic in Hd; lia).
    rewrite T1, Hlow. congruence.
Qed.
Example C88_ex : plain_headers [(str "via", [str "SIP/2.0/UDP h"]); (str "max-forwards", [str "70"])] /\ lower_name (str "via") /\ one_line (str "SIP/2.0/UDP h") /\ Forall graphic (str "x").
Proof.
  assert (O : forall v : bytes, without [13; 10] v -> hd 0 v <> 32 -> last v 0 <> 32 -> one_line v).
  { intros v H1 H2 H3. split; [assumption|]. split; intros t ->; [cbn in H2; lia|rewrite last_last in H3; lia]. }
  split; [|split; [unfold lower_name; plain_chars|split; [apply O; [plain_chars|discriminate|discriminate]|plain_chars]]].
  split; [plain_chars|]. repeat apply Forall_cons; try apply Forall_nil; (split; [unfold lower_name; cbn [fst]; plain_chars|]); cbn [snd]; eexists; (split; [reflexivity|]); (apply O; [plain_chars|discriminate|discriminate]).
Qed.
Print Assumptions C88_headers_partial.
Print Assumptions C88_two_values_refuted.
Print Assumptions C88_no_value_refuted.

(** ** C90: the first line *)
Theorem C90_first_line : forall s, plain_message s ->
  exists line x, first_line s = Ok (line ++ [13; 10]) /\ without [13; 10] line /\ parse_first_line line new_sip = (x, Ok tt) /\
    s_version x = shown_version (s_version s) /\ s_isresp x = s_isresp s /\
    (if s_isresp s then s_code x = s_code s /\ s_status x = status_text (s_code s)
     else s_method x = s_method s /\ exists r r', s_request s = Some r /\ s_request x = Some r' /\
       r_type r' = r_type r /\ r_user r' = r_user r /\ r_host r' = r_host r /\ r_port r' = r_port r /\ same_map (r_args r') (r_args r)).
Proof.
  intros s Hm. destruct (first_text_ok s Hm) as [T1 [_ T3]]. exists (first_text s), (after_first s new_sip). split; [assumption|]. split; [assumption|].
  split; [now apply parse_first_text|]. destruct Hm as [Hf _]. unfold after_first. destruct (s_isresp s) eqn:E; cbn; rewrite ?E; repeat split.
  destruct Hf as [_ [r [-> _]]]. exists r, (request_stored r). repeat split.
Qed.
(** The text after the code is the reason phrase of RFC 3261, but for the codes 480 and 504; no text for codes it does not have. *)
Theorem C90_reason_phrase : forall c,
  (forall t, In (c, t) reason_phrases -> c <> 480 -> c <> 504 -> status_text c = t) /\
  (~ In c (map fst reason_phrases) -> status_text c = []) /\
  status_text 480 = str "No Response" /\ status_text 504 = str "Server Timeout".
Proof.
  intros c. split; [|split; [|split; reflexivity]].
  - intros t Ht H1 H2. assert (B : forallb (fun p => (fst p =? 480) || (fst p =? 504) || bytes_eqb (status_text (fst p)) (snd p)) reason_phrases = true) by (vm_compute; reflexivity).
    rewrite forallb_forall in B. specialize (B _ Ht). cbn [fst snd] in B. apply Bool.orb_true_iff in B. destruct B as [B|B]; [lia|]. apply bytes_eqb_eq, B.
  - intros H. unfold status_text. destruct (find _ status_texts) as [[k t]|] eqn:E; [|reflexivity]. exfalso. apply find_some in E. destruct E as [E1 E2]. cbn [fst] in E2. apply Z.eqb_eq in E2. subst k. apply H.
    change (map fst reason_phrases) with (map fst status_texts). apply (in_map fst) in E1. exact E1.
Qed.
Print Assumptions C90_reason_phrase.
Example C90_reason_example : In (486, str "Busy Here") reason_phrases /\ ~ In 299 (map fst reason_phrases).
Proof. split; [vm_compute; tauto|]. vm_compute. intuition discriminate. Qed.
(** The version of a message nobody gave a version: 2.0. *)
Theorem C90_version : forall m r code reason,
  (exists t, first_line (with_request m (Some r) new_sip) = Ok (t ++ str " SIP/2.0" ++ [13; 10])) /\
  (exists t, first_line (with_response true code reason new_sip) = Ok (str "SIP/2.0 " ++ t)).
Proof.
  intros m r code reason. split; eexists; unfold first_line; cbn [with_request with_response new_sip s_isresp s_request s_version s_method s_code].
  - f_equal. change (version_string 0) with (str "SIP/2.0"). instantiate (1 := method_string m ++ [32] ++ request_bytes r). rewrite <- !app_assoc. reflexivity.
  - f_equal. change (version_string 0) with (str "SIP/2.0"). instantiate (1 := status_string code ++ [32] ++ status_text code ++ [13; 10]). reflexivity.
Qed.
Definition ex_headers : hmap := [(str "from", [str "<sip:a@b>;tag=1"]); (str "to", [str "<sip:c@d>"]); (str "via", [str "SIP/2.0/UDP h:5060;branch=z9"]); (str "cseq", [str "1 INVITE"]); (str "subject", [str "tea, at  5; x="])].
Definition ex_request : request := mkReq (str "sip") (str "bob") (str "biloxi.com") (str "5060") [(str "transport", str "tcp")] [].
Definition ex_message (body : bytes) : sip := make_request 1 (Some ex_request) (Some ex_headers) body.
Lemma ex_one_line v : without [13; 10] v -> hd 0 v <> 32 -> last v 0 <> 32 -> one_line v.
Proof. intros H1 H2 H3. split; [assumption|]. split; intros t ->; [cbn in H2; lia|rewrite last_last in H3; lia]. Qed.
Lemma ex_message_plain body : len body <= 9223372036854775807 -> plain_message (ex_message body).
Proof.
  intros Hb. assert (E : exists p, ex_message body = with_layer [] p (ex_message []) /\ p = body) by (destruct body; eexists; split; reflexivity). destruct E as [p [-> ->]].
  split; [|split; [|split]].
  - split; [cbn; lia|]. eexists. split; [reflexivity|]. split; [left; reflexivity|]. cbn [r_user r_host r_port r_args]. repeat (split; [plain_chars|]). plain_chars.
  - eexists. split; [reflexivity|]. split; [plain_chars|]. unfold ex_headers. repeat apply Forall_cons; try apply Forall_nil; (split; [unfold lower_name; cbn [fst]; plain_chars|]); cbn [snd]; eexists; (split; [reflexivity|]); (apply ex_one_line; [plain_chars|discriminate|discriminate]).
  - split; [|eexists; vm_compute; reflexivity]. intros n [<-|[<-|[<-|[]]]]; eexists; vm_compute; reflexivity.
  - exact Hb.
Qed.
Lemma ex_message_fits body : fits 4096 (ex_message body).
Proof.
  assert (E : exists p, ex_message body = with_layer [] p (ex_message [])) by (destruct body; eexists; reflexivity). destruct E as [p ->]. split.
  - intros l Hl. assert (l = str "INVITE sip:bob@biloxi.com:5060;transport=tcp SIP/2.0" ++ [13; 10]) as -> by (apply (f_equal (fun r => match r with Ok y => y | _ => [] end)) in Hl; rewrite <- Hl; vm_compute; reflexivity).
    split; vm_compute; discriminate.
  - intros k v m Hm Hin. injection Hm as <-. repeat (destruct Hin as [Hin|Hin]; [apply (f_equal (fun q => len (fst q) + match snd q with [] => 0 | x :: _ => len x end)) in Hin; cbn [fst snd] in Hin; rewrite <- Hin; vm_compute; discriminate|]). destruct Hin.
Qed.
Example C90_ex : plain_message (ex_message (str "v=0")) /\ first_line (ex_message (str "v=0")) = Ok (str "INVITE sip:bob@biloxi.com:5060;transport=tcp SIP/2.0" ++ [13; 10]).
Proof. split; [apply ex_message_plain; vm_compute; discriminate|vm_compute; reflexivity]. Qed.
Print Assumptions C90_first_line.
Print Assumptions C90_version.

(** ** C116: a whole message, but for its payload. Whatever blocks the text arrives in, and whatever follows a message
    with a payload. *)
Theorem C116_message_round_trip : forall order s s1 text rest blocks size,
  plain_message s -> iteration order -> fits size s -> 128 <= size -> sip_bytes order s = Ok (s1, text) ->
  concat blocks = text ++ rest -> (s_payload s = [] -> rest = []) ->
  exists b x, sip_parse (reader blocks size) new_sip = (b, (x, Ok tt)) /\ same_message s x.
Proof.
  intros order s s1 text t cs size Hm Ho Hf Hz Hb Hc Ht. destruct (sip_parse_message order s text s1 cs size t Hm Ho Hf Hz Hb Hc Ht) as [b [x [E [P _]]]].
  exists b, x. split; [exact E|]. now apply (parsed_same order).
Qed.
Example C116_ex : plain_message (ex_message (str "v=0")) /\ fits 4096 (ex_message (str "v=0")) /\ iteration (@rev _) /\
  exists s1 text, sip_bytes (@rev _) (ex_message (str "v=0")) = Ok (s1, text) /\ snd (snd (sip_parse (reader (map (fun c => [c]) text) 4096) new_sip)) = Ok tt.
Proof.
  split; [apply ex_message_plain; vm_compute; discriminate|]. split; [apply ex_message_fits|]. split; [intros m; apply Permutation_rev|].
  eexists. eexists. split; [vm_compute; reflexivity|]. vm_compute. reflexivity.
Qed.
Print Assumptions C116_message_round_trip.

(** ** C91: the payload *)
(** Unless it happens to begin with CRLF, no payload comes back as it was: not in any order of the headers, not in any
    segmentation of the text. *)
Theorem C91_payload_round_trip_refuted : forall order s s1 text blocks size,
  plain_message s -> iteration order -> fits size s -> 128 <= size -> sip_bytes order s = Ok (s1, text) ->
  concat blocks = text -> s_payload s <> [] -> (forall t, s_payload s <> 13 :: 10 :: t) ->
  exists b x, sip_parse (reader blocks size) new_sip = (b, (x, Ok tt)) /\ s_payload x <> s_payload s.
Proof.
  intros order s s1 text cs size Hm Ho Hf Hz Hb Hc Hne Hcr. rewrite <- (app_nil_r text) in Hc.
  destruct (sip_parse_message order s text s1 cs size [] Hm Ho Hf Hz Hb Hc (fun _ => eq_refl)) as [b [x [E [_ [_ H]]]]]. exists b, x. split; [exact E|].
  destruct (H Hne) as [d [-> _]]. intros C. symmetry in C. now apply Hcr in C.
Qed.
(** It comes back as CRLF and a prefix of itself, of which at most the last two bytes are missing. *)
Theorem C91_payload_partial : forall order s s1 text blocks size,
  plain_message s -> iteration order -> fits size s -> 128 <= size -> sip_bytes order s = Ok (s1, text) -> concat blocks = text ->
  exists b x, sip_parse (reader blocks size) new_sip = (b, (x, Ok tt)) /\
    (s_payload s = [] -> s_payload x = []) /\
    (s_payload s <> [] -> exists d lost, s_payload x = 13 :: 10 :: d /\ s_payload s = d ++ lost /\ len lost <= 2).
Proof.
  intros order s s1 text cs size Hm Ho Hf Hz Hb Hc. rewrite <- (app_nil_r text) in Hc.
  destruct (sip_parse_message order s text s1 cs size [] Hm Ho Hf Hz Hb Hc (fun _ => eq_refl)) as [b [x [E [_ [H0 H]]]]]. exists b, x. split; [exact E|].
  split; [intros C; now apply H0|]. intros Hne. destruct (H Hne) as [d [H1 [H2 [H3 _]]]]. rewrite app_nil_r in H2. exists d, (bf_rest b). split; [assumption|]. split; [assumption|].
  apply (f_equal (@len Z)) in H2. rewrite len_app in H2. lia.
Qed.
(** And those two are lost when they arrive in a block of their own. *)
Theorem C91_truncation_refuted : forall order s s1 text head p y z size,
  plain_message s -> iteration order -> sip_bytes order s = Ok (s1, text) -> s_payload s = p ++ [y; z] -> p <> [] ->
  text = head ++ p ++ [y; z] -> len (head ++ p) <= size -> len p <= 4096 ->
  exists x, sip_parse (reader [head ++ p; [y; z]] size) new_sip = (reader [[y; z]] size, (x, Ok tt)) /\ s_payload x = 13 :: 10 :: p.
Proof.
  intros order s s1 text hd p y z size Hm Ho Hb Hp Hne Ht Hz Hl.
  assert (Hlp : len (s_payload s) = len p + 2) by (rewrite Hp, len_app; reflexivity). assert (0 < len p) by (destruct p; [congruence|rewrite len_cons; pose proof (len_nonneg p); lia]).
  destruct (sip_parse_block order s text s1 hd p [[y; z]] size Hm Ho Hb) as [x [E [_ E2]]]; [now rewrite Hp|lia|assumption|assumption|lia|]. exists x. split; [exact E|assumption].
Qed.
Example C91_ex : exists s1 text, sip_bytes (fun m => m) (ex_message (str "hello")) = Ok (s1, text) /\ text = firstn 189 text ++ str "hello" /\
  s_payload (fst (snd (sip_parse (reader [text] 4096) new_sip))) = 13 :: 10 :: str "hello" /\
  s_payload (fst (snd (sip_parse (reader [firstn 192 text; str "lo"] 4096) new_sip))) = 13 :: 10 :: str "hel" /\
  s_payload (fst (snd (sip_parse (reader (map (fun c => [c]) text) 4096) new_sip))) = 13 :: 10 :: str "hel".
Proof. eexists. eexists. split; [vm_compute; reflexivity|]. split; [vm_compute; reflexivity|]. split; [vm_compute; reflexivity|]. split; vm_compute; reflexivity. Qed.
Print Assumptions C91_payload_round_trip_refuted.
Print Assumptions C91_payload_partial.
Print Assumptions C91_truncation_refuted.

(** ** C92: no message without a payload ends with the empty line *)
Theorem C92_empty_line_refuted : forall order s s1 text, plain_message s -> iteration order -> s_payload s = [] -> sip_bytes order s = Ok (s1, text) ->
  forall t, text <> t ++ [13; 10; 13; 10].
Proof.
  intros order s s1 text Hm Ho Hp Hb t C. destruct (sip_bytes_text order s Hm Ho) as [s2 [Hb2 [Hw _]]]. rewrite Hb2, Hp in Hb. cbn [blank_and_body] in Hb.
  assert (Ht : with_crlf (msg_lines order s) ++ [] = text) by (apply (f_equal (fun r => match r with Ok y => snd y | _ => [] end)) in Hb; exact Hb). rewrite app_nil_r in Ht.
  destruct (first_text_ok s Hm) as [T1 [T2 _]].
  assert (Hls : Forall (fun l => l <> [] /\ without [13; 10] l) (msg_lines order s)).
  { constructor; [auto|]. apply Forall_map. destruct Hw as [_ Hw]. eapply Forall_impl; [|exact Hw]. intros p. apply hline_ok. }
  rewrite C in Ht. assert (Hne : msg_lines order s <> []) by discriminate. destruct (exists_last Hne) as [ls [l El]]. rewrite El in *. apply Forall_app in Hls. destruct Hls as [_ Hl]. apply Forall_inv in Hl. destruct Hl as [Hl1 Hl2].
  unfold with_crlf in Ht. rewrite flat_map_app in Ht. cbn [flat_map] in Ht. rewrite app_nil_r, app_assoc in Ht.
  change [13; 10; 13; 10] with ([13; 10] ++ [13; 10]) in Ht. rewrite (app_assoc t) in Ht. apply app_inv_tail in Ht.
  destruct (exists_last Hl1) as [l' [c El']]. rewrite El', app_assoc in Ht. change [13; 10] with ([13] ++ [10]) in Ht. rewrite (app_assoc t) in Ht. apply app_inj_tail in Ht. destruct Ht as [_ ->].
  rewrite El' in Hl2. apply without_app in Hl2. destruct Hl2 as [_ Hl2]. apply Forall_inv in Hl2. cbn in Hl2. lia.
Qed.
(** With a payload, the empty line is there, and after it the payload and nothing else. *)
Theorem C92_with_payload_partial : forall order s s1 text, plain_message s -> iteration order -> s_payload s <> [] -> sip_bytes order s = Ok (s1, text) ->
  exists lines, Forall (fun l => l <> [] /\ without [13; 10] l) lines /\ text = with_crlf lines ++ [13; 10] ++ s_payload s.
Proof.
  intros order s s1 text Hm Ho Hp Hb. destruct (sip_bytes_text order s Hm Ho) as [s2 [Hb2 [Hw _]]]. rewrite Hb2 in Hb. destruct (first_text_ok s Hm) as [T1 [T2 _]].
  exists (msg_lines order s). split.
  - constructor; [auto|]. apply Forall_map. destruct Hw as [_ Hw]. eapply Forall_impl; [|exact Hw]. intros p. apply hline_ok.
  - apply (f_equal (fun r => match r with Ok y => snd y | _ => [] end)) in Hb. cbn [snd] in Hb. rewrite <- Hb. unfold msg_lines. destruct (s_payload s); [congruence|reflexivity].
Qed.
Example C92_ex : plain_message (ex_message []) /\ exists s1, sip_bytes (fun m => m) (ex_message []) = Ok (s1, with_crlf
  [str "INVITE sip:bob@biloxi.com:5060;transport=tcp SIP/2.0"; str "from: <sip:a@b>;tag=1"; str "to: <sip:c@d>"; str "via: SIP/2.0/UDP h:5060;branch=z9"; str "cseq: 1 INVITE"; str "subject: tea, at  5; x="; str "content-length: 0"]).
Proof. split; [apply ex_message_plain; vm_compute; discriminate|]. eexists. vm_compute. reflexivity. Qed.
Print Assumptions C92_empty_line_refuted.
Print Assumptions C92_with_payload_partial.

(** ** C93: what follows a message *)
(** A message with more than two bytes of payload, and whatever follows it: if it all arrives in one block and fits the
    buffers, all of it is consumed and becomes the payload. *)
Theorem C93_stays_within_refuted : forall order s s1 text rest size,
  plain_message s -> iteration order -> sip_bytes order s = Ok (s1, text) -> 2 < len (s_payload s) ->
  len (text ++ rest) <= size -> len (s_payload s ++ rest) <= 4096 ->
  exists b x, sip_parse (reader [text ++ rest] size) new_sip = (b, (x, Ok tt)) /\ bf_rest b = [] /\ s_payload x = [13; 10] ++ s_payload s ++ rest.
Proof.
  intros order s s1 text t size Hm Ho Hb Hp Hl Hq. destruct (sip_bytes_text order s Hm Ho) as [s2 [Hb2 _]]. pose proof Hb as Hb'. rewrite Hb2 in Hb'.
  apply (f_equal (fun r => match r with Ok y => snd y | _ => [] end)) in Hb'. cbn [snd] in Hb'.
  assert (Hbb : blank_and_body (s_payload s) = [13; 10] ++ s_payload s) by (destruct (s_payload s); [change (len (@nil Z)) with 0 in Hp; lia|reflexivity]). rewrite Hbb, app_assoc in Hb'.
  set (hd := _ ++ [13; 10]) in Hb'. rewrite <- Hb' in Hl |- *. rewrite <- app_assoc in Hl |- *.
  destruct (sip_parse_block order s text s1 hd (s_payload s ++ t) [] size Hm Ho Hb) as [x [E [_ E2]]]; [now rewrite Hb'|lia|assumption|assumption|rewrite len_app; pose proof (len_nonneg t); lia|].
  eexists. exists x. split; [exact E|]. split; [reflexivity|assumption].
Qed.
(** If the message ends with its block, exactly the message is consumed and the payload is complete. *)
Theorem C93_message_per_block_partial : forall order s s1 text blocks size,
  plain_message s -> iteration order -> sip_bytes order s = Ok (s1, text) -> 2 < len (s_payload s) <= 4096 -> len text <= size ->
  exists x, sip_parse (reader (text :: blocks) size) new_sip = (reader blocks size, (x, Ok tt)) /\ s_payload x = [13; 10] ++ s_payload s /\ same_message s x.
Proof.
  intros order s s1 text cs size Hm Ho Hb Hp Hl. destruct (sip_bytes_text order s Hm Ho) as [s2 [Hb2 _]]. pose proof Hb as Hb'. rewrite Hb2 in Hb'.
  apply (f_equal (fun r => match r with Ok y => snd y | _ => [] end)) in Hb'. cbn [snd] in Hb'.
  assert (Hbb : blank_and_body (s_payload s) = [13; 10] ++ s_payload s) by (destruct (s_payload s); [change (len (@nil Z)) with 0 in Hp; lia|reflexivity]). rewrite Hbb, app_assoc in Hb'.
  set (hd := _ ++ [13; 10]) in Hb'. rewrite <- Hb' in Hl |- *.
  destruct (sip_parse_block order s text s1 hd (s_payload s) cs size Hm Ho Hb) as [x [E [P E2]]]; [now rewrite Hb'|lia|assumption|lia|lia|].
  exists x. split; [exact E|]. split; [assumption|]. now apply (parsed_same order).
Qed.
Example C93_ex : exists s1 text, sip_bytes (fun m => m) (ex_message (str "abc")) = Ok (s1, text) /\
  s_payload (fst (snd (sip_parse (reader [text ++ text] 4096) new_sip))) = [13; 10] ++ str "abc" ++ text /\
  s_payload (fst (snd (sip_parse (reader [text; text] 4096) new_sip))) = [13; 10] ++ str "abc".
Proof. eexists. eexists. split; [vm_compute; reflexivity|]. split; vm_compute; reflexivity. Qed.
Print Assumptions C93_stays_within_refuted.
Print Assumptions C93_message_per_block_partial.

(** ** C94: Content-Length *)
(** After Bytes the object reports the payload length, whatever it reported before. *)
Theorem C94_reported : forall order s s1 text, sip_bytes order s = Ok (s1, text) -> len (s_payload s) <= 9223372036854775807 ->
  get_content_length (s_headers s1) = Ok (len (s_payload s)).
Proof.
  intros order s s1 text H Hl. unfold sip_bytes in H. destruct (first_line s) as [l|e| |]; cbn [bind] in H; try discriminate.
  set (s0 := if s_isresp s then _ else _) in H. assert (Hp : s_payload s0 = s_payload s) by (unfold s0; destruct (s_isresp s); reflexivity).
  destruct (s_headers s0) as [m|]; cbn [set_content_length set_first bind] in H; [|discriminate].
  apply (f_equal (fun r => match r with Ok y => s_headers (fst y) | _ => None end)) in H. cbn [fst with_headers s_headers] in H. rewrite <- H.
  unfold get_content_length, get_first, hlook. change (to_lower (str "content-length")) with (str "content-length"). rewrite mget_mset_same, Hp. apply atoi_itoa. pose proof (len_nonneg (s_payload s)). lia.
Qed.
(** In the text of a plain message it is the only content-length line. *)
Theorem C94_written_partial : forall order s s1 text, plain_message s -> iteration order -> sip_bytes order s = Ok (s1, text) ->
  exists first fields tail, first_line s = Ok (first ++ [13; 10]) /\ text = with_crlf (first :: map (fun p => fst p ++ [58; 32] ++ snd p) fields) ++ tail /\
    NoDup (map fst fields) /\ In (str "content-length", itoa (len (s_payload s))) fields /\ (tail = [] \/ tail = [13; 10] ++ s_payload s).
Proof.
  intros order s s1 text Hm Ho Hb. destruct (sip_bytes_text order s Hm Ho) as [s2 [Hb2 [[Hn Hw] Hl]]]. destruct (first_text_ok s Hm) as [_ [_ T3]]. rewrite Hb2 in Hb.
  apply (f_equal (fun r => match r with Ok y => snd y | _ => [] end)) in Hb. cbn [snd] in Hb.
  exists (first_text s), (map (fun p => (fst p, hvalue p)) (written_headers order s)), (blank_and_body (s_payload s)). split; [assumption|]. split; [|split; [|split]].
  - rewrite <- Hb, map_map. reflexivity.
  - rewrite map_map. cbn [fst]. exact Hn.
  - specialize (Hl cl). rewrite bytes_eqb_refl in Hl. apply mget_in in Hl. apply (in_map (fun p => (fst p, hvalue p))) in Hl. exact Hl.
  - destruct (s_payload s); [left|right]; reflexivity.
Qed.
(** But a header map may hold the name in another case, as SetHeader accepts any map: then the text has two such lines,
    and its reader may believe the wrong one. *)
Theorem C94_other_case_refuted : forall v, without [13; 10] v -> (forall t, v <> 32 :: t) -> (forall t, v <> t ++ [32]) ->
  exists s1, sip_bytes (fun m => m) (make_response 200 (Some [(str "Content-Length", [v])]) (str "hello"))
      = Ok (s1, with_crlf [str "SIP/2.0 200 OK"; str "Content-Length: " ++ v; str "content-length: 5"] ++ [13; 10] ++ str "hello") /\
    get_content_length (s_headers (fst (feed [str "Content-Length: " ++ v; str "content-length: 5"] new_sip))) = atoi v.
Proof.
  intros v H1 H2 H3. eexists. split.
  - assert (E : with_crlf [str "SIP/2.0 200 OK"; str "Content-Length: " ++ v; str "content-length: 5"] ++ [13; 10] ++ str "hello"
      = (str "SIP/2.0 200 OK" ++ [13; 10]) ++ ((str "Content-Length" ++ [58]) ++ ([32] ++ v ++ [13; 10]) ++ []) ++ (str "content-length: 5" ++ [13; 10]) ++ [13; 10] ++ str "hello").
    { unfold with_crlf. cbn [flat_map]. change (str "Content-Length: ") with (str "Content-Length" ++ [58; 32]). rewrite !app_nil_r. rewrite <- !app_assoc. reflexivity. }
    rewrite E. cbv -[app]. cbn [app]. rewrite ?app_nil_r. repeat (rewrite <- ?app_assoc; cbn [app]). reflexivity.
  - destruct (feed_fields [mkField (str "Content-Length") v []; mkField (str "content-length") (str "5") []] new_sip []) as [s [m [E1 [E2 E3]]]].
    + repeat apply Forall_cons; try apply Forall_nil; (split; [unfold field_name; cbn [f_name]; plain_chars|split; [|constructor]]); [split; [assumption|split; assumption]|].
      apply ex_one_line; [plain_chars|discriminate|discriminate].
    + reflexivity.
    + change (flat_map field_lines [mkField (str "Content-Length") v []; mkField (str "content-length") (str "5") []]) with [str "Content-Length: " ++ v; str "content-length: 5"] in E1.
      rewrite E1. cbn [fst]. rewrite E2. unfold get_content_length, get_first. specialize (E3 (to_lower (str "content-length"))). unfold hvals in E3. cbn [hlook mget app] in *.
      change (filter _ _) with [mkField (str "Content-Length") v []; mkField (str "content-length") (str "5") []] in E3.
      destruct (mget _ m) as [x|]; [|discriminate]. rewrite E3. cbn [map field_text f_value f_more flat_map]. unfold field_text. cbn [f_value f_more flat_map]. now rewrite ?app_nil_r.
Qed.
Example C94_ex : atoi (str "7") = Ok 7 /\ get_content_length (s_headers (ex_message (str "abc"))) = Err EOther /\
  exists s1 text, sip_bytes (fun m => m) (ex_message (str "abc")) = Ok (s1, text) /\ get_content_length (s_headers s1) = Ok 3.
Proof. split; [reflexivity|]. split; [vm_compute; reflexivity|]. eexists. eexists. split; [vm_compute; reflexivity|]. vm_compute. reflexivity. Qed.
Print Assumptions C94_reported.
Print Assumptions C94_written_partial.
Print Assumptions C94_other_case_refuted.
