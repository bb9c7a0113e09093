(** C106, C110-C112, C114, C115, C117: Parse on arbitrary input, Bytes on arbitrary objects. *)
From Coq Require Import String Permutation.
From Verif Require Import Base.Go Base.GoFacts Base.IO Base.Text Model.Sip Spec.Sip Proofs.Text Proofs.Sip Proofs.SipMsg Proofs.SipRead Proofs.SipText Proofs.SipParse Proofs.SipMore Proofs.SipHeaders Proofs.SipFields Props.Sip Props.SipMsg.
Import ListNotations. Local Open Scope list_scope. Local Open Scope Z_scope.
Local Ltac Zify.zify_post_hook ::= Z.div_mod_to_equations.

Lemma reader_inv blocks size : 0 < size -> rinv (reader blocks size).
Proof. intros H. split; [exact H|]. split; [|reflexivity]. change (len (bf_buf (reader blocks size))) with 0. cbn. lia. Qed.
Lemma reader_rest blocks size : bf_rest (reader blocks size) = concat blocks.
Proof. reflexivity. Qed.

(** ** C106: Parse panics *)
(** On any input that is a sequence of lines, an empty line and a body: Parse panics exactly when the URI of the first
    line has a broken parameter, a continuation line precedes all headers, or an address header has a broken parameter. *)
Theorem C106_parse_never_panics_refuted : forall first lines body blocks size,
  Forall (fun l => l <> [] /\ without [13; 10] l /\ len l + 2 <= size) (first :: lines) -> 2 <= size ->
  concat blocks = with_crlf (first :: lines) ++ [13; 10] ++ body ->
  snd (snd (sip_parse (reader blocks size) new_sip)) = Panic <->
  snd (parse_first_line first new_sip) = Panic \/
  exists x0, parse_first_line first new_sip = (x0, Ok tt) /\
    (snd (feed lines x0) = Panic \/ exists x1, feed lines x0 = (x1, Ok tt) /\ ~ addresses_ok (s_headers x1)).
Proof.
  intros first ls body cs size Hls Hz Hc.
  assert (G : forall ls count x, 0 < count -> run_lines count ls x = feed ls x).
  { clear. induction ls as [|l ls IH]; intros c x Hc; cbn [run_lines feed]; [reflexivity|]. replace (c =? 0) with false by lia. destruct (parse_header l x) as [x' [u|e| |]]; try reflexivity. apply IH. lia. }
  assert (F : forall s, ~ addresses_ok (s_headers s) <-> fill_header s = (s, Panic)).
  { clear. intros s. split.
    - intros H. destruct (fill_header_res s) as [[x E]|E]; [|assumption]. exfalso. apply H. unfold fill_header, get_sip_contact, get_sip_cseq, get_sip_from, get_sip_to, get_sip_via in E.
      destruct (new_user (get_first (s_headers s) (str "contact"))) as [c| | |] eqn:E1; try discriminate.
      destruct (new_cseq (get_first (s_headers s) (str "cseq"))) as [q| | |] eqn:E2; try discriminate.
      destruct (new_user (get_first (s_headers s) (str "from"))) as [f| | |] eqn:E3; try discriminate.
      destruct (new_user (get_first (s_headers s) (str "to"))) as [t| | |] eqn:E4; try discriminate.
      destruct (new_via (get_first (s_headers s) (str "via"))) as [v| | |] eqn:E5; try discriminate.
      split; [|now exists v]. intros n [<-|[<-|[<-|[]]]]; eauto.
    - intros E H. destruct (fill_header_as s (s_headers s) (fun _ _ => eq_refl) H) as [c [q [f [t [v [E' _]]]]]]. rewrite E' in E. discriminate. }
  pose proof (parse_lines_run (first :: ls) (S (S (length (concat cs)))) (reader cs size) 0 0 [] new_sip ([13; 10] ++ body) [13; 10] body
    (reader_inv cs size ltac:(lia)) Hls Hc (or_introl (conj eq_refl (conj eq_refl Hz))) ltac:(lia)) as R.
  specialize (R ltac:(rewrite Hc, app_length; pose proof (with_crlf_len (first :: ls)); lia)). cbn [run_lines] in R. change (0 =? 0) with true in R. cbv iota in R.
  unfold sip_parse. rewrite reader_rest.
  destruct (parse_first_line first new_sip) as [x0 [[]|e| |]] eqn:E0.
  - rewrite G in R by lia. destruct (feed ls x0) as [x1 [[]|e| |]] eqn:E1.
    + destruct R as [b' [-> [R2 [R3 R4]]]]. destruct (fill_header_res x1) as [[x Ex]|Ex]; rewrite Ex.
      * pose proof (fill_body_spec (s_headers x) (len ([] ++ with_crlf (first :: ls) ++ [13; 10]) - (0 + len (with_crlf (first :: ls)))) b' R3) as B.
        assert (NP : forall A : Prop, ~ A -> (Ok tt : res unit) = Panic <-> A) by (intros A HA; split; [discriminate|contradiction]).
        assert (NE : forall A : Prop, ~ A -> (Err EOther : res unit) = Panic <-> A) by (intros A HA; split; [discriminate|contradiction]).
        assert (NA : ~ (snd (x0, Ok tt) = (Panic : res unit) \/ exists x2, (x0, Ok tt) = (x2, Ok tt : res unit) /\ (snd (feed ls x2) = Panic \/ exists x3, feed ls x2 = (x3, Ok tt) /\ ~ addresses_ok (s_headers x3)))).
        { intros [C|[x2 [C [D|[x3 [D1 D2]]]]]]; [discriminate|injection C as <-; rewrite E1 in D; discriminate|injection C as <-; rewrite E1 in D1; injection D1 as <-].
          apply F in D2. rewrite D2 in Ex. discriminate. }
        destruct (get_content_length (s_headers x)) as [n|e| |]; [destruct B as [b2 [d [-> _]]]; now apply NP|rewrite B; now apply NE..].
      * cbn [snd]. split; [intros _|reflexivity]. right. exists x0. split; [reflexivity|]. right. exists x1. split; [assumption|]. now apply F.
    + destruct R as [b' ->]. cbn [snd]. split; [discriminate|]. intros [C|[x2 [C [D|[x3 [D1 D2]]]]]]; [discriminate| |]; injection C as <-; [rewrite E1 in D; discriminate|rewrite E1 in D1; discriminate].
    + destruct R as [b' ->]. cbn [snd]. split; [intros _|reflexivity]. right. exists x0. split; [reflexivity|]. left. now rewrite E1.
    + destruct R as [b' ->]. cbn [snd]. split; [discriminate|]. intros [C|[x2 [C [D|[x3 [D1 D2]]]]]]; [discriminate| |]; injection C as <-; [rewrite E1 in D; discriminate|rewrite E1 in D1; discriminate].
  - destruct R as [b' ->]. cbn [snd]. split; [discriminate|]. intros [C|[x2 [C _]]]; discriminate.
  - destruct R as [b' ->]. cbn [snd]. split; [intros _; now left|reflexivity].
  - destruct R as [b' ->]. cbn [snd]. split; [discriminate|]. intros [C|[x2 [C _]]]; discriminate.
Qed.
(** For every parameter name: a request with that parameter and an empty value in its Via makes Parse panic. *)
Theorem C106_empty_parameter_panics : forall key, key <> [] -> Forall graphic key -> without (str ",;=""") key -> len key <= 4000 ->
  snd (sip_parse_bytes (with_crlf [str "OPTIONS sip:a@b SIP/2.0"; str "Via: SIP/2.0/UDP h;" ++ key ++ [61]] ++ [13; 10]) new_sip) = Panic.
Proof.
  intros k Hne Hg Hw Hl. unfold sip_parse_bytes.
  pose proof (C106_parse_never_panics_refuted (str "OPTIONS sip:a@b SIP/2.0") [str "Via: SIP/2.0/UDP h;" ++ k ++ [61]] []
    [with_crlf [str "OPTIONS sip:a@b SIP/2.0"; str "Via: SIP/2.0/UDP h;" ++ k ++ [61]] ++ [13; 10]] 4096) as P.
  unfold new_reader. unfold reader in P. apply P; clear P.
  - assert (Hk : without [13; 10] k) by (eapply Forall_impl; [|exact Hg]; cbn; unfold graphic; intros; lia).
    repeat apply Forall_cons; try apply Forall_nil; (split; [discriminate|split]).
    + plain_chars.
    + vm_compute. discriminate.
    + repeat (apply without_app; split); try assumption; plain_chars.
    + rewrite !len_app. change (len (str "Via: SIP/2.0/UDP h;")) with 19. change (len [61]) with 1. lia.
  - lia.
  - cbn [concat]. rewrite !app_nil_r. reflexivity.
  - right. eexists. split; [vm_compute; reflexivity|]. right.
    set (x0 := mkSip _ _ _ _ _ _ _ _ _ _ _ _ _ _ _). set (v := str "SIP/2.0/UDP h;" ++ k ++ [61]).
    assert (Ol : one_line v).
    { split; [|split].
      - unfold v. repeat (apply without_app; split); try plain_chars. eapply Forall_impl; [|exact Hg]; cbn; unfold graphic; intros; lia.
      - intros t C. discriminate.
      - intros t C. apply (f_equal (fun s => last s 0)) in C. rewrite last_last in C. unfold v in C. rewrite app_assoc, last_last in C. discriminate. }
    pose proof (parse_field_line (str "Via") v [] x0 ltac:(unfold field_name; plain_chars) Ol eq_refl) as E.
    change (str "Via: SIP/2.0/UDP h;" ++ k ++ [61]) with (str "Via" ++ [58; 32] ++ v). cbn [feed]. rewrite E. eexists. split; [reflexivity|].
    intros [_ [w Hw']]. cbn [with_last with_headers s_headers] in Hw'. destruct (C84_empty_value_panics k Hne Hg Hw) as [_ [_ N]]. fold v in N.
    unfold get_first, hlook in Hw'. change (to_lower (str "via")) with (to_lower (str "Via")) in Hw'. rewrite mget_mset_same in Hw'. cbn [hvals hlook mget app] in Hw'. congruence.
Qed.
Example C106_ex : snd (sip_parse_bytes (with_crlf [str "OPTIONS sip:a@b SIP/2.0"; str " folded"] ++ [13; 10]) new_sip) = Panic /\
  snd (sip_parse_bytes (with_crlf [str "OPTIONS sip:a@b;lr= SIP/2.0"]) new_sip) = Panic /\
  snd (sip_parse_bytes (with_crlf [str "OPTIONS sip:a@b;lr=1 SIP/2.0"; str "to:x"; str " folded"; str "l: 0"; str "content-length: 0"]) new_sip) = Ok tt.
Proof. repeat split; vm_compute; reflexivity. Qed.
Print Assumptions C106_parse_never_panics_refuted.
Print Assumptions C106_empty_parameter_panics.

(** ** C110: Bytes is repeatable *)
Theorem C110_bytes_idempotent : forall order s s1 text, sip_bytes order s = Ok (s1, text) -> sip_bytes order s1 = Ok (s1, text).
Proof.
  intros order s s1 text. destruct s as [co pa ve [m|] fr tto ct cs vi me rq [|] cd st la];
    unfold sip_bytes, first_line; cbn [s_isresp s_request s_method s_version s_headers s_payload s_code with_request bind set_content_length set_first]; try (destruct rq as [r|]; cbn [bind]); try discriminate.
  all: intros E; injection E as <- <-; cbn; rewrite mset_mset; reflexivity.
Qed.
(** Only the content-length header and the source text of the request change. *)
Theorem C110_bytes_changes : forall order s s1 text, sip_bytes order s = Ok (s1, text) ->
  (forall n, to_lower n <> str "content-length" -> to_lower n <> [] -> hlook (s_headers s1) (to_lower n) = hlook (s_headers s) (to_lower n)) /\
  s_payload s1 = s_payload s /\ s_contents s1 = s_contents s /\ s_version s1 = s_version s /\ s_isresp s1 = s_isresp s /\ s_code s1 = s_code s /\ s_method s1 = s_method s /\
  s_from s1 = s_from s /\ s_to s1 = s_to s /\ s_contact s1 = s_contact s /\ s_cseq s1 = s_cseq s /\ s_via s1 = s_via s /\
  match s_request s, s_request s1 with
  | Some r, Some r' => r_type r' = r_type r /\ r_user r' = r_user r /\ r_host r' = r_host r /\ r_port r' = r_port r /\ r_args r' = r_args r
  | None, None => True
  | _, _ => False
  end.
Proof.
  intros order s s1 text. destruct s as [co pa ve [m|] fr tto ct cs vi me rq [|] cd st la];
    unfold sip_bytes, first_line; cbn [s_isresp s_request s_method s_version s_headers s_payload s_code with_request bind set_content_length set_first]; try (destruct rq as [r|]; cbn [bind]); try discriminate;
    (intros E; injection E as <- <-; cbn; repeat split; try (intros n Hn _; apply mget_mset_other; exact Hn)); destruct rq; repeat split.
Qed.
Example C110_ex : exists s1 text, sip_bytes (@rev _) (ex_message (str "abc")) = Ok (s1, text) /\ s1 <> ex_message (str "abc").
Proof. eexists. eexists. split; [vm_compute; reflexivity|]. intros C. apply (f_equal s_headers) in C. vm_compute in C. discriminate. Qed.
Print Assumptions C110_bytes_idempotent.
Print Assumptions C110_bytes_changes.

(** ** C111: repeated and folded header fields *)
(** Any sequence of fields, names in any case, values possibly folded over several lines: GetHeader gives the values of a
    name in the order of arrival, GetFirstHeader the first of them. *)
Theorem C111_header_fields : forall fields, Forall plain_field fields ->
  exists s, feed (flat_map field_lines fields) new_sip = (s, Ok tt) /\
    forall n, let values := map field_text (filter (fun f => bytes_eqb (to_lower (f_name f)) (to_lower n)) fields) in
      get_header (s_headers s) n = values /\ get_first (s_headers s) n = hd [] values.
Proof.
  intros fs Hf. destruct (feed_fields fs new_sip [] Hf eq_refl) as [s [m [E1 [E2 E3]]]]. exists s. split; [exact E1|]. intros n values.
  specialize (E3 (to_lower n)). cbn [hvals hlook mget app] in E3. fold values in E3. rewrite E2. unfold hvals in E3. cbn [hlook] in E3. unfold get_header, get_first, hlook.
  destruct (mget (to_lower n) m) as [[|v l]|] eqn:Em.
  - exfalso. pose proof (feed_hist (flat_map field_lines fs) new_sip False hist_new) as H. rewrite E1 in H.
    assert (NE : forall ls x, (forall k, hlook (s_headers x) k <> Some []) -> s_headers x <> None -> forall y, feed ls x = (y, Ok tt) -> (forall k, hlook (s_headers y) k <> Some [])).
    { clear. induction ls as [|l ls IH]; intros x Hx Hs y E; cbn [feed] in E; [injection E as <-; assumption|].
      destruct (parse_header l x) as [x' [[]|e| |]] eqn:Ep; try discriminate. apply (IH x'); [| |assumption].
      - unfold parse_header in Ep. destruct l as [|c l]; [injection Ep as <-; assumption|]. destruct ((c =? 9) || (c =? 32)).
        + destruct (append_last (32 :: trim_space (c :: l)) (hvals (s_headers x) (s_last x))) as [l2|] eqn:Ea; [|discriminate]. destruct (s_headers x) as [m|] eqn:Em; [|discriminate]. injection Ep as <-.
          intros k. cbn [with_headers s_headers hlook]. rewrite mget_mset. destruct (bytes_eqb k (s_last x)); [|apply Hx].
          intros C. injection C as ->. destruct (hvals (Some m) (s_last x)) as [|v q]; [discriminate|].
          destruct (append_last_some (32 :: trim_space (c :: l)) (v :: q) ltac:(discriminate)) as [l' [El Hl]]. congruence.
        + destruct (cut 58 (c :: l)) as [[a b]|]; [|injection Ep as <-; assumption]. destruct (s_headers x) as [m|]; [|discriminate]. injection Ep as <-.
          intros k. cbn [with_last with_headers s_headers hlook]. rewrite mget_mset. destruct (bytes_eqb k _); [|apply Hx]. intros C. injection C as C. apply app_eq_nil in C. destruct C; discriminate.
      - unfold parse_header in Ep. destruct l as [|c l]; [injection Ep as <-; assumption|]. destruct ((c =? 9) || (c =? 32)).
        + destruct (append_last _ _); [|discriminate]. destruct (s_headers x); [|discriminate]. injection Ep as <-. discriminate.
        + destruct (cut 58 (c :: l)) as [[a b]|]; [|injection Ep as <-; assumption]. destruct (s_headers x) as [m|]; [|discriminate]. injection Ep as <-. discriminate. }
    apply (NE _ new_sip) with (k := to_lower n) (y := s) in E1; [|discriminate|discriminate]. apply E1. rewrite E2. exact Em.
  - rewrite <- E3. auto.
  - rewrite <- E3. auto.
Qed.
Definition ex_fields : list hfield :=
  [mkField (str "Via") (str "SIP/2.0/UDP a") []; mkField (str "AUTHORIZATION") (str "Digest username=x,") [(9, str "realm=y,"); (32, str "nonce=z")]; mkField (str "VIA") (str "SIP/2.0/UDP b") []].
Example C111_ex : Forall plain_field ex_fields /\
  map field_text (filter (fun f => bytes_eqb (to_lower (f_name f)) (to_lower (str "via"))) ex_fields) = [str "SIP/2.0/UDP a"; str "SIP/2.0/UDP b"] /\
  get_first (s_headers (fst (feed (flat_map field_lines ex_fields) new_sip))) (str "Authorization") = str "Digest username=x, realm=y, nonce=z".
Proof.
  split; [|split; vm_compute; reflexivity]. unfold ex_fields. repeat apply Forall_cons; try apply Forall_nil; (split; [unfold field_name; cbn [f_name]; plain_chars|]); cbn [f_value f_more];
    (split; [apply ex_one_line; [plain_chars|discriminate|discriminate]|]); repeat apply Forall_cons; try apply Forall_nil; cbn [fst snd]; (split; [lia|split; [discriminate|plain_chars]]).
Qed.
Print Assumptions C111_header_fields.

(** ** C112: segmentation *)
Lemma prefixes {A} (a b c d : list A) : a ++ b = c ++ d -> exists t, a = c ++ t \/ c = a ++ t.
Proof.
  revert c. induction a as [|x a IH]; intros c E; [exists c; now right|]. destruct c as [|y c]; [exists (x :: a); now left|]. injection E as <- E. destruct (IH c E) as [t [-> | ->]]; exists t; auto.
Qed.
(** The same bytes in two segmentations: Parse succeeds on both or on neither; the objects differ in the payload only, of
    which one is a prefix of the other. *)
Theorem C112_segmentation_partial : forall blocks1 blocks2 size s, 0 < size -> concat blocks1 = concat blocks2 ->
  (exists b1 b2 x1 x2, sip_parse (reader blocks1 size) s = (b1, (x1, Ok tt)) /\ sip_parse (reader blocks2 size) s = (b2, (x2, Ok tt)) /\
     same_but_layer x1 x2 /\ s_contents x1 = s_contents x2 /\ exists t, s_payload x1 = s_payload x2 ++ t \/ s_payload x2 = s_payload x1 ++ t) \/
  (exists b1 b2 x e1 e2, sip_parse (reader blocks1 size) s = (b1, (x, Err e1)) /\ sip_parse (reader blocks2 size) s = (b2, (x, Err e2))) \/
  (exists b1 b2 x, sip_parse (reader blocks1 size) s = (b1, (x, Panic)) /\ sip_parse (reader blocks2 size) s = (b2, (x, Panic))).
Proof.
  intros c1 c2 size s Hz Hc. pose proof (sip_parse_outcome (reader c1 size) s (reader_inv _ _ Hz)) as P1. pose proof (sip_parse_outcome (reader c2 size) s (reader_inv _ _ Hz)) as P2.
  rewrite reader_rest in P1, P2. rewrite <- Hc in P2. change (bf_size (reader c1 size)) with size in P1. change (bf_size (reader c2 size)) with size in P2.
  destruct (parse_outcome size (concat c1) s) as [x o bu t need|x|x] eqn:E.
  - left. destruct P1 as [b1 [d1 [P1 [D1 _]]]]. destruct P2 as [b2 [d2 [P2 [D2 _]]]]. destruct (parse_outcome_consumed _ _ _ _ _ _ _ _ E) as [used [eol [-> [_ [-> _]]]]].
    rewrite <- app_assoc, take_app, drop_app in P1, P2. exists b1, b2. eexists. eexists. split; [exact P1|]. split; [exact P2|]. split; [reflexivity|]. split; [reflexivity|]. cbn [with_layer s_payload].
    rewrite D1 in D2. destruct (prefixes _ _ _ _ D2) as [u [-> | ->]]; exists u; [left|right]; now rewrite app_assoc.
  - right. left. destruct P1 as [b1 [e1 P1]]. destruct P2 as [b2 [e2 P2]]. exists b1, b2, x, e1, e2. auto.
  - right. right. destruct P1 as [b1 P1]. destruct P2 as [b2 P2]. exists b1, b2, x. auto.
Qed.
(** Every plain message with a payload of at least three bytes that fits the buffers is read differently when its last
    two bytes arrive separately. *)
Theorem C112_segmentation_refuted : forall order s s1 text p y z size,
  plain_message s -> iteration order -> sip_bytes order s = Ok (s1, text) -> s_payload s = p ++ [y; z] -> p <> [] -> len text <= size -> len (s_payload s) <= 4096 ->
  exists blocks b1 b2 x1 x2, concat blocks = text /\ sip_parse (reader [text] size) new_sip = (b1, (x1, Ok tt)) /\ sip_parse (reader blocks size) new_sip = (b2, (x2, Ok tt)) /\
    s_payload x1 = s_payload x2 ++ [y; z].
Proof.
  intros order s s1 text p y z size Hm Ho Hb Hp Hne Hz Hl. assert (Hp0 : 0 < len p) by (destruct p; [congruence|rewrite len_cons; pose proof (len_nonneg p); lia]).
  assert (Hlp : len (s_payload s) = len p + 2) by (rewrite Hp, len_app; reflexivity).
  destruct (C92_with_payload_partial order s s1 text Hm Ho ltac:(rewrite Hp; destruct p; discriminate) Hb) as [ls [_ Ht]]. set (h := with_crlf ls ++ [13; 10]).
  assert (Ht' : text = h ++ p ++ [y; z]) by (rewrite Ht, Hp; unfold h; rewrite <- !app_assoc; reflexivity).
  destruct (C93_message_per_block_partial order s s1 text [] size Hm Ho Hb ltac:(lia) Hz) as [x1 [E1 [E2 _]]].
  destruct (C91_truncation_refuted order s s1 text h p y z size Hm Ho Hb Hp Hne Ht') as [x2 [F1 F2]].
  - rewrite Ht', app_assoc, len_app in Hz. change (len [y; z]) with 2 in Hz. lia.
  - lia.
  - exists [h ++ p; [y; z]]. eexists. eexists. exists x1, x2. split; [cbn [concat]; rewrite app_nil_r, <- app_assoc; now symmetry|]. split; [exact E1|]. split; [exact F1|]. rewrite E2, F2, Hp. reflexivity.
Qed.
Example C112_ex : exists s1 text, sip_bytes (fun m => m) (ex_message (str "abcd")) = Ok (s1, text) /\ len text <= 4096 /\ s_payload (ex_message (str "abcd")) = str "ab" ++ str "cd".
Proof. eexists. eexists. split; [vm_compute; reflexivity|]. split; [vm_compute; discriminate|reflexivity]. Qed.
Print Assumptions C112_segmentation_partial.
Print Assumptions C112_segmentation_refuted.

(** ** C114: Parse terminates on every finite input, in every segmentation, from every state of the object *)
Theorem C114_parse_terminates : forall blocks size s, 0 < size -> snd (snd (sip_parse (reader blocks size) s)) <> OutOfFuel.
Proof.
  intros cs size s Hz. pose proof (sip_parse_outcome (reader cs size) s (reader_inv _ _ Hz)) as P.
  destruct (parse_outcome _ _ s) as [x o bu t need|x|x]; [destruct P as [b [d [-> _]]]|destruct P as [b [e ->]]|destruct P as [b ->]]; discriminate.
Qed.
Example C114_ex : snd (snd (sip_parse (reader [[0; 255]; []; [13]] 16) new_sip)) = Err EOther.
Proof. vm_compute. reflexivity. Qed.
Print Assumptions C114_parse_terminates.

(** ** C115: on success Contents and Payload are what was consumed; the body is complete unless the input ended *)
Theorem C115_contents_payload : forall blocks size s b x, 0 < size -> sip_parse (reader blocks size) s = (b, (x, Ok tt)) ->
  concat blocks = s_contents x ++ s_payload x ++ bf_rest b /\
  exists n, get_content_length (s_headers x) = Ok n /\ (bf_rest b = [] \/ n <= len (s_payload x)).
Proof.
  intros cs size s b x Hz H. pose proof (sip_parse_outcome (reader cs size) s (reader_inv _ _ Hz)) as P. rewrite reader_rest in P.
  destruct (parse_outcome (bf_size (reader cs size)) (concat cs) s) as [x' o bu t need|x'|x'] eqn:E.
  - destruct P as [b' [d [P [D [_ N]]]]]. rewrite P in H. destruct (parse_outcome_consumed _ _ _ _ _ _ _ _ E) as [used [eol [Eb [Er [Eo _]]]]].
    assert (Eb' : b' = b) by congruence. assert (Ex : with_layer (take (bu ++ d) o) (drop (bu ++ d) o) x' = x) by congruence. subst b' x bu o. cbn [with_layer s_contents s_payload s_headers].
    rewrite <- app_assoc, take_app, drop_app. split; [rewrite Er, D, <- !app_assoc; reflexivity|].
    unfold parse_outcome in E. destruct (lines_pure _ _ _ _ _ _ _) as [s' [[[o' bu'] t']|e| |]]; try discriminate. destruct (fill_header s') as [y [u|e| |]]; try discriminate.
    destruct (get_content_length (s_headers y)) as [n|e| |] eqn:En; try discriminate. injection E as E1 E2 E3 E4 E5. subst. exists n. split; [exact En|]. destruct N as [N|N]; [now left|right]. rewrite !len_app in *. lia.
  - destruct P as [b' [e P]]. rewrite P in H. discriminate.
  - destruct P as [b' P]. rewrite P in H. discriminate.
Qed.
Example C115_ex : exists b x, sip_parse (reader [with_crlf [str "SIP/2.0 200 OK"; str "Content-Length: 5"] ++ [13; 10] ++ str "hello"] 64) new_sip = (b, (x, Ok tt)) /\ s_payload x = [13; 10] ++ str "hello".
Proof. eexists. eexists. split; [vm_compute; reflexivity|reflexivity]. Qed.
Print Assumptions C115_contents_payload.

(** ** C117: MakeRequest and MakeResponse *)
Theorem C117_make_request : forall method r m body order s1 text blocks size,
  let s := make_request method (Some r) (Some m) body in
  1 <= method <= 15 -> plain_request r -> plain_headers m -> addresses_ok (Some m) -> len body <= 9223372036854775807 ->
  iteration order -> fits size s -> 128 <= size -> sip_bytes order s = Ok (s1, text) -> concat blocks = text ->
  exists b x, sip_parse (reader blocks size) new_sip = (b, (x, Ok tt)) /\ s_isresp x = false /\ s_method x = method /\ s_version x = 2 /\
    (exists r', s_request x = Some r' /\ r_type r' = r_type r /\ r_user r' = r_user r /\ r_host r' = r_host r /\ r_port r' = r_port r /\ same_map (r_args r') (r_args r)) /\
    (forall n, to_lower n <> str "content-length" -> get_header (s_headers x) n = get_header (Some m) n) /\
    get_content_length (s_headers x) = Ok (len body).
Proof.
  intros me r m body order s1 text cs size s Hme Hr Hm Ha Hl Ho Hf Hz Hb Hc.
  assert (Hs : s_payload s = body /\ s_headers s = Some m /\ s_isresp s = false /\ s_method s = me /\ s_request s = Some r /\ s_version s = 2) by (unfold s, make_request; destruct m, body; repeat split).
  destruct Hs as [S1 [S2 [S3 [S4 [S5 S6]]]]].
  assert (Hp : plain_message s) by (split; [rewrite S3, S4, S5; eauto|]; split; [rewrite S2; eauto|]; split; [now rewrite S2|now rewrite S1]).
  rewrite <- (app_nil_r text) in Hc. destruct (C116_message_round_trip order s s1 text [] cs size Hp Ho Hf Hz Hb Hc (fun _ => eq_refl)) as [b [x [E [M1 [M2 [M3 [M4 _]]]]]]].
  exists b, x. split; [exact E|]. rewrite S3 in *. split; [assumption|]. destruct M4 as [M4 [r0 [r' [R1 R2]]]]. rewrite S4 in M4. split; [assumption|]. rewrite S6 in M2. split; [assumption|].
  rewrite S5 in R1. injection R1 as <-. split; [eauto|]. rewrite S1, S2 in M1. split.
  - intros n Hn. rewrite M1. destruct (bytes_eqb (to_lower n) (str "content-length")) eqn:Eq; [apply bytes_eqb_eq in Eq; contradiction|reflexivity].
  - specialize (M1 (str "content-length")). change (bytes_eqb (to_lower (str "content-length")) (str "content-length")) with true in M1. cbv iota in M1.
    unfold get_content_length. assert (G : get_first (s_headers x) (str "content-length") = itoa (len body)).
    { unfold get_first. unfold get_header in M1. destruct (hlook (s_headers x) (to_lower (str "content-length"))) as [[|v l]|]; [|congruence|discriminate].
      destruct (hvals (s_headers x) (compact_of (to_lower (str "content-length")))) as [|v l]; congruence. }
    rewrite G. apply atoi_itoa. pose proof (len_nonneg body). lia.
Qed.
Theorem C117_make_response : forall code m body order s1 text blocks size,
  let s := make_response code (Some m) body in
  - 9223372036854775808 <= code <= 9223372036854775807 -> plain_headers m -> addresses_ok (Some m) -> len body <= 9223372036854775807 ->
  iteration order -> fits size s -> 128 <= size -> sip_bytes order s = Ok (s1, text) -> concat blocks = text ->
  exists b x, sip_parse (reader blocks size) new_sip = (b, (x, Ok tt)) /\ s_isresp x = true /\ s_code x = code /\ s_status x = status_text code /\ s_version x = 2 /\
    (forall n, to_lower n <> str "content-length" -> get_header (s_headers x) n = get_header (Some m) n).
Proof.
  intros code m body order s1 text cs size s Hcode Hm Ha Hl Ho Hf Hz Hb Hc.
  assert (Hs : s_payload s = body /\ s_headers s = Some m /\ s_isresp s = true /\ s_code s = code /\ s_version s = 2) by (unfold s, make_response; destruct m, body; repeat split).
  destruct Hs as [S1 [S2 [S3 [S4 S6]]]].
  assert (Hp : plain_message s) by (split; [rewrite S3, S4; assumption|]; split; [rewrite S2; eauto|]; split; [now rewrite S2|now rewrite S1]).
  rewrite <- (app_nil_r text) in Hc. destruct (C116_message_round_trip order s s1 text [] cs size Hp Ho Hf Hz Hb Hc (fun _ => eq_refl)) as [b [x [E [M1 [M2 [M3 [M4 _]]]]]]].
  exists b, x. split; [exact E|]. rewrite S3 in *. rewrite S4 in M4. destruct M4 as [M4 M5]. rewrite S6 in M2. repeat split; auto. rewrite S1, S2 in M1.
  intros n Hn. rewrite M1. destruct (bytes_eqb (to_lower n) (str "content-length")) eqn:Eq; [apply bytes_eqb_eq in Eq; contradiction|reflexivity].
Qed.
Example C117_ex : plain_request ex_request /\ plain_headers ex_headers /\ addresses_ok (Some ex_headers) /\ fits 4096 (make_request 1 (Some ex_request) (Some ex_headers) (str "x")).
Proof.
  destruct (ex_message_plain (str "x") ltac:(vm_compute; discriminate)) as [[_ [r [E1 R]]] [[m [E2 M]] [A _]]]. injection E1 as <-. injection E2 as <-. split; [exact R|]. split; [exact M|]. split; [exact A|exact (ex_message_fits (str "x"))].
Qed.
Print Assumptions C117_make_request.
Print Assumptions C117_make_response.
