(** Proofs about parsing whole messages. *)
From Coq Require Import String Permutation.
From Verif Require Import Base.Go Base.GoFacts Base.IO Base.Text Model.Sip Spec.Sip Proofs.Text Proofs.Sip Proofs.SipMsg Proofs.SipRead Proofs.SipText.
Import ListNotations. Local Open Scope list_scope. Local Open Scope Z_scope.
Local Ltac Zify.zify_post_hook ::= Z.div_mod_to_equations.

(** * The body, however the source is cut *)
Lemma buf_read_spec b : rinv b ->
  match buf_read 4096 b with
  | (b', None) => bf_rest b = [] /\ bf_rest b' = [] /\ rinv b'
  | (b', Some d) => d <> [] /\ bf_rest b = d ++ bf_rest b' /\ rinv b'
  end.
Proof.
  intros [H1 [H2 H3]]. unfold buf_read. destruct (bf_buf b) as [|x l] eqn:E.
  - rewrite H3. unfold bf_rest. rewrite E. destruct (4096 >=? bf_size b) eqn:E4.
    + pose proof (src_read_spec 4096 (bf_src b) ltac:(lia)) as R. destruct (src_read 4096 (bf_src b)) as [[d cs]|].
      * destruct R as [R1 [R2 R3]]. cbn [bf_buf bf_src]. split; [assumption|]. split; [exact R3|]. split; [assumption|]. split; [cbn [bf_buf bf_size]; change (len (@nil Z)) with 0; lia|reflexivity].
      * split; [exact R|]. split; [reflexivity|]. split; [assumption|]. split; [cbn [bf_buf bf_size]; change (len (@nil Z)) with 0; lia|reflexivity].
    + pose proof (src_read_spec (bf_size b) (bf_src b) ltac:(lia)) as R. destruct (src_read (bf_size b) (bf_src b)) as [[d cs]|].
      * destruct R as [R1 [R2 R3]]. cbn [bf_buf bf_src]. split; [|split].
        -- destruct d as [|y d]; [congruence|]. unfold take. change (Z.to_nat 4096) with (S 4095). discriminate.
        -- rewrite app_assoc, take_drop. exact R3.
        -- split; [assumption|]. split; [|reflexivity]. cbn [bf_buf bf_size]. assert (len (drop d 4096) <= len d) by (unfold drop, len; rewrite skipn_length; lia). lia.
      * split; [exact R|]. split; [reflexivity|]. split; [assumption|]. split; [cbn [bf_buf bf_size]; change (len (@nil Z)) with 0; lia|reflexivity].
  - unfold bf_rest. rewrite E. cbn [bf_buf bf_src]. split; [|split].
    + unfold take. change (Z.to_nat 4096) with (S 4095). discriminate.
    + rewrite app_assoc, take_drop. reflexivity.
    + split; [assumption|]. split; [|assumption]. cbn [bf_buf bf_size]. rewrite <- E in *. assert (len (drop (bf_buf b) 4096) <= len (bf_buf b)) by (unfold drop, len; rewrite skipn_length; lia). lia.
Qed.
Lemma body_loop_spec fuel : forall size body b, rinv b -> (length (bf_rest b) < fuel)%nat ->
  exists b' d, body_loop fuel size body b = (b', Ok (body ++ d)) /\ bf_rest b = d ++ bf_rest b' /\ (size <= 0 -> d = []) /\
    (bf_rest b' = [] \/ size <= len d).
Proof.
  induction fuel as [|f IH]; intros size body b Hb Hf; [lia|]. cbn [body_loop]. destruct (size <=? 0) eqn:E.
  - exists b, []. rewrite app_nil_r. split; [reflexivity|]. split; [reflexivity|]. split; [reflexivity|]. right. change (len (@nil Z)) with 0. lia.
  - pose proof (buf_read_spec b Hb) as R. destruct (buf_read 4096 b) as [b1 [d|]].
    + destruct R as [R1 [R2 R3]]. destruct (IH (size - len d) (body ++ d) b1 R3) as [b' [d' [E1 [E2 [E3 E4]]]]].
      { rewrite R2, app_length in Hf. destruct d; [congruence|]. cbn [length] in Hf. lia. }
      exists b', (d ++ d'). rewrite E1, <- app_assoc. split; [reflexivity|]. rewrite R2, E2, <- app_assoc. split; [reflexivity|]. split; [lia|].
      rewrite len_app. destruct E4 as [E4|E4]; [now left|right; lia].
    + destruct R as [R1 [R2 R3]]. exists b1, []. rewrite app_nil_r. split; [reflexivity|]. rewrite R1, R2. split; [reflexivity|]. split; [reflexivity|]. now left.
Qed.

(** * The line loop when all lines are in the buffer *)
Lemma parse_lines_inbuf ls : forall fuel b count offset buffer s body,
  bf_buf b = with_crlf ls ++ 13 :: 10 :: body -> bf_eof b = false -> Forall (fun l => l <> [] /\ without [13; 10] l) ls ->
  0 <= count -> (length ls < fuel)%nat ->
  forall s', run_lines count ls s = (s', Ok tt) ->
  parse_lines fuel b count offset buffer s =
    (mkB body false (bf_src b) (bf_size b), (s', Ok (offset + len (with_crlf ls), buffer ++ with_crlf ls ++ [13; 10]))).
Proof.
  induction ls as [|l ls IH]; intros fuel b count offset buffer s body Hbuf He Hls Hc Hf s' Hrun; (destruct fuel as [|f]; [cbn [length] in Hf; lia|]); cbn [run_lines] in Hrun.
  - injection Hrun as <-. cbn [parse_lines]. cbn [read_slice]. rewrite Hbuf. cbn [with_crlf flat_map app]. change (13 :: 10 :: body) with ([13] ++ 10 :: body).
    rewrite cut_app by (repeat constructor; lia). cbn [andb app]. change (len (trim_crlf [13; 10]) =? 0) with true. cbv iota zeta. rewrite He.
    change (len [13; 10]) with 2. change (len (@nil Z)) with 0. do 4 f_equal. lia.
  - inversion Hls as [|x y [L1 L2] Hls']; subst. cbn [parse_lines]. cbn [read_slice]. rewrite Hbuf. unfold with_crlf at 1. cbn [flat_map]. rewrite <- !app_assoc. cbn [app].
    replace (l ++ 13 :: 10 :: flat_map (fun l0 => l0 ++ [13; 10]) ls ++ 13 :: 10 :: body) with ((l ++ [13]) ++ 10 :: with_crlf ls ++ 13 :: 10 :: body) by (rewrite <- app_assoc; reflexivity).
    rewrite cut_app by (apply Forall_app; split; [eapply Forall_impl; [|exact L2]; cbn; intros; lia|repeat constructor; lia]).
    cbn [andb]. cbv iota zeta. rewrite <- app_assoc. cbn [app]. rewrite trim_crlf_line by assumption.
    replace (len l =? 0) with false; [|symmetry; apply Z.eqb_neq; intros C; apply L1; now apply len_zero].
    destruct (if count =? 0 then parse_first_line l s else parse_header l s) as [s1 [u|e| |]]; try discriminate.
    rewrite (IH f _ (count + 1) (offset + len (l ++ [13; 10])) (buffer ++ l ++ [13; 10]) s1 body) with (s' := s'); [|reflexivity|exact He|exact Hls'|lia|cbn [length] in Hf; lia|exact Hrun].
    cbn [bf_src bf_size]. unfold with_crlf. cbn [flat_map]. do 4 f_equal; [rewrite !len_app; change (len [13; 10]) with 2; lia|]. rewrite <- !app_assoc. reflexivity.
Qed.
(** A fresh reader takes its first chunk, if it fits, into the buffer. *)
Lemma parse_lines_load fuel c cs size count offset buffer s l t : c = l ++ 10 :: t -> Forall (fun z => z <> 10) l -> len c <= size ->
  parse_lines (S fuel) (mkB [] false (c :: cs) size) count offset buffer s = parse_lines (S fuel) (mkB c false cs size) count offset buffer s.
Proof.
  intros E Hl Hs. cbn [parse_lines].
  assert (Hlen : 0 < len c) by (rewrite E, len_app, len_cons; pose proof (len_nonneg l); pose proof (len_nonneg t); lia).
  assert (R : forall n m, read_slice (S (S n)) (mkB [] false (c :: cs) size) = read_slice (S m) (mkB c false cs size)).
  { intros n m. cbn [read_slice bf_buf bf_eof bf_size bf_src cut]. change (len (@nil Z)) with 0. replace (0 >=? size) with false by lia.
    replace (src_read (size - 0) (c :: cs)) with (Some (c, cs)). 2:{ cbn [src_read]. destruct c as [|x c']; [change (len (@nil Z)) with 0 in Hlen; lia|]. replace (len (x :: c') <=? size - 0) with true by lia. reflexivity. }
    cbn [app read_slice bf_buf]. rewrite E, cut_app by assumption. reflexivity. }
  rewrite (R _ (S (length (bf_rest (mkB c false cs size))))). reflexivity.
Qed.

(** * A whole message *)
Definition msg_lines (order : hmap -> hmap) (s : sip) : list bytes := first_text s :: map hline (written_headers order s).
Lemma itoa_short n : 0 <= n <= 9223372036854775807 -> len (itoa n) <= 64.
Proof.
  intros H. unfold itoa. replace (n <? 0) with false by lia.
  assert (L : forall fuel n acc, len (dec_digits fuel n acc) <= Z.of_nat fuel + len acc).
  { induction fuel as [|f IH]; intros m acc; cbn [dec_digits]; [lia|]. cbv zeta. destruct (m / 10 =? 0); [rewrite len_cons; lia|]. specialize (IH (m / 10) (48 + m mod 10 :: acc)). rewrite len_cons in IH. lia. }
  eapply Z.le_trans; [apply L|]. change (len (@nil Z)) with 0. assert (Z.log2 n <= 62).
  { change 62 with (Z.log2 9223372036854775807). now apply Z.log2_le_mono. }
  pose proof (Z.log2_nonneg n). lia.
Qed.
Lemma fill_header_as s h : (forall n, In n [str "contact"; str "cseq"; str "from"; str "to"; str "via"] -> get_first (s_headers s) n = get_first h n) ->
  addresses_ok h -> exists c q f t v, fill_header s = (with_common f t c q v s, Ok tt) /\
    new_user (get_first h (str "contact")) = Ok c /\ new_cseq (get_first h (str "cseq")) = Ok q /\ new_user (get_first h (str "from")) = Ok f /\
    new_user (get_first h (str "to")) = Ok t /\ new_via (get_first h (str "via")) = Ok v.
Proof.
  intros Hg [Hu [v Hv]]. destruct (Hu (str "contact")) as [c Hc]; [cbn; tauto|]. destruct (Hu (str "from")) as [f Hf]; [cbn; tauto|]. destruct (Hu (str "to")) as [t Ht]; [cbn; tauto|].
  destruct (new_cseq_total (get_first h (str "cseq"))) as [q Hq]. exists c, q, f, t, v. unfold fill_header, get_sip_contact, get_sip_cseq, get_sip_from, get_sip_to, get_sip_via. rewrite !Hg by (cbn; tauto). rewrite Hc, Hq, Hf, Ht, Hv. auto 10.
Qed.
Lemma get_first_plain m n : plain_headers m -> get_first (Some m) n = match mget (to_lower n) m with Some (v :: _) => v | _ => [] end.
Proof.
  intros [_ H]. unfold get_first, hlook. destruct (mget (to_lower n) m) as [[|v l]|] eqn:E; try reflexivity. apply mget_in in E. rewrite Forall_forall in H.
  destruct (H _ E) as [_ [v [C _]]]. discriminate.
Qed.
(** The state when the last line has been read. *)
Lemma run_message order s : plain_message s -> iteration order ->
  exists l, run_lines 0 (msg_lines order s) new_sip = (with_last l (with_headers (Some (written_headers order s)) (after_first s new_sip)), Ok tt).
Proof.
  intros Hm Ho. destruct (sip_bytes_text order s Hm Ho) as [_ [_ [Hw _]]]. unfold msg_lines. cbn [run_lines]. change (0 =? 0) with true. cbv iota. rewrite parse_first_text by assumption.
  destruct Hw as [W1 W2]. destruct (run_headers (written_headers order s) (0 + 1) (after_first s new_sip) []) as [s' [E1 [E2 [l E3]]]].
  - assumption.
  - assumption.
  - unfold after_first. destruct (s_isresp s); reflexivity.
  - intros k _ [].
  - lia.
  - exists l. rewrite E1, E3. reflexivity.
Qed.
(** What parsing makes of the object before the payload is set. *)
Definition parsed_as (s x : sip) (order : hmap -> hmap) : Prop :=
  let h := s_headers s in
  s_headers x = Some (written_headers order s) /\
  s_version x = shown_version (s_version s) /\ s_isresp x = s_isresp s /\
  (if s_isresp s then s_code x = s_code s /\ s_status x = status_text (s_code s)
   else s_method x = s_method s /\ exists r, s_request s = Some r /\ s_request x = Some (request_stored r)) /\
  (exists u, new_user (get_first h (str "contact")) = Ok u /\ s_contact x = Some u) /\
  (exists u, new_user (get_first h (str "from")) = Ok u /\ s_from x = Some u) /\
  (exists u, new_user (get_first h (str "to")) = Ok u /\ s_to x = Some u) /\
  (exists q, new_cseq (get_first h (str "cseq")) = Ok q /\ s_cseq x = Some q) /\
  (exists v, new_via (get_first h (str "via")) = Ok v /\ s_via x = Some v).
Lemma fill_message order s l : plain_message s -> iteration order ->
  exists x, fill_header (with_last l (with_headers (Some (written_headers order s)) (after_first s new_sip))) = (x, Ok tt) /\ parsed_as s x order /\
    get_content_length (s_headers x) = Ok (len (s_payload s)).
Proof.
  intros Hm Ho. destruct (sip_bytes_text order s Hm Ho) as [_ [_ [Hw Hl]]]. destruct Hm as [Hf [[m [Em Hp]] [Ha Hlen]]].
  destruct (fill_header_as (with_last l (with_headers (Some (written_headers order s)) (after_first s new_sip))) (s_headers s)) as [c [q [f [t [v [E [E1 [E2 [E3 [E4 E5]]]]]]]]]].
  - intros n Hn. cbn [with_last with_headers s_headers]. rewrite Em, !get_first_plain by assumption. rewrite Hl, Em.
    assert (Hd : bytes_eqb (to_lower n) cl = false) by (destruct Hn as [<-|[<-|[<-|[<-|[<-|[]]]]]]; vm_compute; reflexivity). rewrite Hd. reflexivity.
  - assumption.
  - eexists. split; [exact E|]. split.
    + unfold parsed_as. unfold after_first. destruct (s_isresp s) eqn:Er; cbn; rewrite ?Er; repeat split; eauto.
      destruct Hf as [_ [r [-> _]]]. eauto.
    + cbn [with_common with_last with_headers s_headers]. unfold get_content_length. rewrite get_first_plain by assumption. rewrite Hl.
      change (bytes_eqb (to_lower (str "content-length")) cl) with true. cbv iota. apply atoi_itoa. pose proof (len_nonneg (s_payload s)). lia.
Qed.
Lemma msg_lines_ok order s size : plain_message s -> iteration order -> fits size s -> 128 <= size -> Forall (line_ok size) (msg_lines order s).
Proof.
  intros Hm Ho [F1 F2] Hz. destruct (sip_bytes_text order s Hm Ho) as [_ [_ [Hw _]]]. destruct (first_text_ok s Hm) as [T1 [T2 T3]]. constructor.
  - split; [assumption|]. split; [assumption|]. destruct (F1 _ T3) as [_ F]. rewrite len_app in F. change (len [13; 10]) with 2 in F. lia.
  - apply Forall_map. destruct Hw as [_ Hw]. rewrite Forall_forall in *. intros p Hp. specialize (Hw p Hp). destruct (hline_ok p Hw) as [L1 L2]. split; [assumption|]. split; [assumption|].
    unfold written_headers in Hp. destruct Hm as [_ [[m [Em Hpm]] [_ Hlen]]]. rewrite Em in Hp.
    assert (Hin : In p (mset cl [itoa (len (s_payload s))] m)) by (eapply Permutation_in; [apply Permutation_sym, Ho|exact Hp]).
    assert (Hor : p = (cl, [itoa (len (s_payload s))]) \/ In p m).
    { clear -Hin. induction m as [|[k v] m IH]; cbn [mset] in Hin; [destruct Hin as [<-|[]]; now left|]. destruct (bytes_eqb cl k); cbn [In] in *; [destruct Hin; auto|destruct Hin as [Hin|Hin]; [auto|destruct (IH Hin); auto]]. }
    destruct Hor as [-> | Hor].
    + unfold hline, hvalue. cbn [fst snd]. rewrite !len_app. change (len cl) with 14. change (len [58; 32]) with 2. pose proof (itoa_short (len (s_payload s))). pose proof (len_nonneg (s_payload s)). lia.
    + destruct p as [k vs]. destruct Hpm as [_ Hpm]. rewrite Forall_forall in Hpm. destruct (Hpm _ Hor) as [_ [v [E _]]]. cbn [snd] in E. subst vs.
      specialize (F2 k v m Em Hor). unfold hline, hvalue. cbn [fst snd]. rewrite !len_app. change (len [58; 32]) with 2. lia.
Qed.
Lemma with_crlf_len ls : (length ls <= length (with_crlf ls))%nat.
Proof. unfold with_crlf. induction ls as [|l ls IH]; cbn [flat_map length]; [lia|]. rewrite !app_length. cbn [length]. lia. Qed.

Lemma sip_parse_lines order s text s1 cs size t : plain_message s -> iteration order -> Forall (line_ok size) (msg_lines order s) -> 128 <= size ->
  sip_bytes order s = Ok (s1, text) -> concat cs = text ++ t -> (s_payload s = [] -> t = []) ->
  exists b x, sip_parse (mkB [] false cs size) new_sip = (b, (x, Ok tt)) /\ parsed_as s x order /\
    (s_payload s = [] -> s_payload x = [] /\ s_contents x = text /\ bf_rest b = []) /\
    (s_payload s <> [] -> exists d, s_payload x = 13 :: 10 :: d /\ s_payload s ++ t = d ++ bf_rest b /\ len (s_payload s) - 2 <= len d /\
      (len (s_payload s) <= 2 -> d = []) /\ text = s_contents x ++ 13 :: 10 :: s_payload s).
Proof.
  intros Hm Ho Hok Hz Hb Hcat Ht. destruct (sip_bytes_text order s Hm Ho) as [s2 [Hb2 _]]. assert (Htext : with_crlf (msg_lines order s) ++ blank_and_body (s_payload s) = text) by (rewrite Hb2 in Hb; apply (f_equal (fun r => match r with Ok y => snd y | _ => [] end)) in Hb; exact Hb).
  destruct (run_message order s Hm Ho) as [l Hrun]. destruct (fill_message order s l Hm Ho) as [x [Hfill [Hpa Hcl]]].
  set (b0 := mkB [] false cs size). assert (Hb0 : rinv b0) by (split; [cbn; lia|split; [change (len (bf_buf b0)) with 0; cbn; lia|reflexivity]]).
  assert (Hrest : bf_rest b0 = text ++ t) by exact Hcat.
  set (W := with_crlf (msg_lines order s)) in *.
  assert (Hlay : forall a c y, parsed_as s y order -> parsed_as s (with_layer a c y) order) by (intros a c y P; exact P).
  destruct (s_payload s) as [|c p] eqn:Ep.
  - rewrite (Ht eq_refl) in *. cbn [blank_and_body] in Htext. rewrite app_nil_r in Htext, Hrest.
    pose proof (parse_lines_run (msg_lines order s) (S (S (length (bf_rest b0)))) b0 0 0 [] new_sip [] [] []) as R. fold W in R.
    specialize (R Hb0 Hok). rewrite Hrest, <- Htext, app_nil_r in R. specialize (R eq_refl (or_intror (conj eq_refl (conj eq_refl eq_refl))) ltac:(lia)).
    specialize (R ltac:(pose proof (with_crlf_len (msg_lines order s)); fold W in H; lia)). rewrite Hrun in R. destruct R as [b1 [R1 [R2 [R3 R4]]]].
    exists b1, (with_layer W [] x). unfold sip_parse. rewrite Hrest, <- Htext, R1. rewrite Hfill. unfold fill_body. rewrite Hcl. cbn [app]. change (len (@nil Z)) with 0 in *.
    replace (0 - (len W - (0 + len W))) with 0 by lia. rewrite body_loop_done by lia. change (0 + len W) with (len W). rewrite take_app, drop_app.
    split; [reflexivity|]. split; [now apply Hlay|]. split; [intros _; auto|]. congruence.
  - clear Ht. rewrite <- Ep in *. assert (Hne : s_payload s <> []) by (rewrite Ep; discriminate). assert (Hbb : blank_and_body (s_payload s) = [13; 10] ++ s_payload s) by (rewrite Ep; reflexivity). rewrite Hbb in Htext.
    pose proof (parse_lines_run (msg_lines order s) (S (S (length (bf_rest b0)))) b0 0 0 [] new_sip ([13; 10] ++ s_payload s ++ t) [13; 10] (s_payload s ++ t)) as R. fold W in R.
    assert (Hs2 : 2 <= bf_size b0) by (change (bf_size b0) with size; lia).
    specialize (R Hb0 Hok). rewrite Hrest, <- Htext, <- !app_assoc in R. specialize (R eq_refl (or_introl (conj eq_refl (conj eq_refl Hs2))) ltac:(lia)).
    specialize (R ltac:(pose proof (with_crlf_len (msg_lines order s)); fold W in H; rewrite app_length; lia)). rewrite Hrun in R. destruct R as [b1 [R1 [R2 [R3 R4]]]].
    destruct (body_loop_spec (S (length (bf_rest b1))) (len (s_payload s) - 2) [] b1 R3 ltac:(lia)) as [b2 [d [B1 [B2 [B3 B4]]]]].
    exists b2, (with_layer W (13 :: 10 :: d) x). unfold sip_parse. rewrite Hrest, <- Htext, <- !app_assoc, R1, Hfill. unfold fill_body. rewrite Hcl. cbn [app] in *.
    rewrite len_app. change (len [13; 10]) with 2. replace (len (s_payload s) - (len W + 2 - (0 + len W))) with (len (s_payload s) - 2) by lia. rewrite B1.
    rewrite <- app_assoc. cbn [app]. change (0 + len W) with (len W). rewrite take_app, drop_app.
    split; [reflexivity|]. split; [now apply Hlay|]. split; [congruence|]. intros _. exists d. split; [reflexivity|]. rewrite <- R2. split; [exact B2|]. split.
    + destruct B4 as [B4|B4]; [|exact B4]. rewrite R2, B4, app_nil_r in B2. rewrite <- B2, len_app. pose proof (len_nonneg t). lia.
    + split; [intros; apply B3; lia|]. cbn [with_layer s_contents]. reflexivity.
Qed.
Lemma sip_parse_message order s text s1 cs size t : plain_message s -> iteration order -> fits size s -> 128 <= size ->
  sip_bytes order s = Ok (s1, text) -> concat cs = text ++ t -> (s_payload s = [] -> t = []) ->
  exists b x, sip_parse (mkB [] false cs size) new_sip = (b, (x, Ok tt)) /\ parsed_as s x order /\
    (s_payload s = [] -> s_payload x = [] /\ s_contents x = text /\ bf_rest b = []) /\
    (s_payload s <> [] -> exists d, s_payload x = 13 :: 10 :: d /\ s_payload s ++ t = d ++ bf_rest b /\ len (s_payload s) - 2 <= len d /\
      (len (s_payload s) <= 2 -> d = []) /\ text = s_contents x ++ 13 :: 10 :: s_payload s).
Proof. intros Hm Ho Hf Hz. eapply sip_parse_lines; eauto. now apply msg_lines_ok. Qed.
(** A source whose first block holds the header section and the part [q] of what follows. *)
Lemma sip_parse_block order s text s1 hd q cs size : plain_message s -> iteration order ->
  sip_bytes order s = Ok (s1, text) -> text = hd ++ s_payload s -> 2 < len (s_payload s) ->
  len (hd ++ q) <= size -> len q <= 4096 -> len (s_payload s) - 2 <= len q ->
  exists x, sip_parse (mkB [] false ((hd ++ q) :: cs) size) new_sip = (mkB [] false cs size, (x, Ok tt)) /\ parsed_as s x order /\ s_payload x = 13 :: 10 :: q.
Proof.
  intros Hm Ho Hb Htx Hp2 Hc Hq Hpq. destruct (sip_bytes_text order s Hm Ho) as [s2 [Hb2 [Hw _]]].
  assert (Htext : with_crlf (msg_lines order s) ++ blank_and_body (s_payload s) = text) by (rewrite Hb2 in Hb; apply (f_equal (fun r => match r with Ok y => snd y | _ => [] end)) in Hb; exact Hb).
  assert (Hbb : blank_and_body (s_payload s) = [13; 10] ++ s_payload s) by (destruct (s_payload s); [change (len (@nil Z)) with 0 in Hp2; lia|reflexivity]).
  destruct (run_message order s Hm Ho) as [l Hrun]. destruct (fill_message order s l Hm Ho) as [x [Hfill [Hpa Hcl]]].
  destruct (first_text_ok s Hm) as [T1 [T2 _]].
  assert (Hls : Forall (fun l => l <> [] /\ without [13; 10] l) (msg_lines order s)).
  { constructor; [auto|]. apply Forall_map. destruct Hw as [_ Hw]. eapply Forall_impl; [|exact Hw]. intros p. apply hline_ok. }
  set (W := with_crlf (msg_lines order s)) in *. rewrite Hbb, Htx, app_assoc in Htext. apply app_inv_tail in Htext. subst hd.
  assert (Hq0 : exists y q', q = y :: q') by (destruct q as [|y q']; [change (len (@nil Z)) with 0 in Hpq; lia|eauto]). destruct Hq0 as [y [q' Eq]].
  set (c := (W ++ [13; 10]) ++ q) in *.
  assert (Hcut : c = (first_text s ++ [13]) ++ 10 :: with_crlf (map hline (written_headers order s)) ++ 13 :: 10 :: q).
  { unfold c, W, msg_lines, with_crlf. cbn [flat_map]. rewrite <- !app_assoc. reflexivity. }
  assert (Hin : bf_buf (mkB c false cs size) = W ++ 13 :: 10 :: q) by (unfold c; cbn [bf_buf]; rewrite <- app_assoc; reflexivity).
  eexists. unfold sip_parse. rewrite (parse_lines_load _ c cs size 0 0 [] new_sip (first_text s ++ [13]) (with_crlf (map hline (written_headers order s)) ++ 13 :: 10 :: q));
    [|exact Hcut|apply Forall_app; split; [eapply Forall_impl; [|exact T1]; cbn; intros; lia|repeat constructor; lia]|exact Hc].
  rewrite (parse_lines_inbuf (msg_lines order s) _ _ 0 0 [] new_sip q) with (s' := with_last l (with_headers (Some (written_headers order s)) (after_first s new_sip)));
    [|exact Hin|reflexivity|exact Hls|lia| |exact Hrun].
  2:{ unfold bf_rest. cbn [bf_buf bf_src concat app]. unfold c. pose proof (with_crlf_len (msg_lines order s)). fold W in H. rewrite !app_length. lia. }
  rewrite Hfill. unfold fill_body. rewrite Hcl. cbn [app]. fold W. rewrite len_app. change (len [13; 10]) with 2. cbn [bf_src bf_size].
  replace (len (s_payload s) - (len W + 2 - (0 + len W))) with (len (s_payload s) - 2) by lia.
  set (fu := length _). assert (B : body_loop (S fu) (len (s_payload s) - 2) [] (mkB q false cs size) = (mkB [] false cs size, Ok q)).
  { cbn [body_loop]. replace (len (s_payload s) - 2 <=? 0) with false by lia. unfold buf_read. cbn [bf_buf]. rewrite Eq. rewrite <- Eq.
    replace (take q 4096) with q by (unfold take; symmetry; apply firstn_all2; unfold len in Hq; lia). replace (drop q 4096) with (@nil Z) by (unfold drop; symmetry; apply skipn_all2; unfold len in Hq; lia).
    apply body_loop_done. lia. }
  rewrite B. rewrite <- app_assoc. cbn [app]. change (0 + len W) with (len W). rewrite take_app, drop_app. split; [reflexivity|]. split; [exact Hpa|reflexivity].
Qed.
