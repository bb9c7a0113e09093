(** Proofs about serialized messages and what parsing makes of them. *)
From Coq Require Import String Permutation.
From Verif Require Import Base.Go Base.GoFacts Base.IO Base.Text Model.Sip Spec.Sip Proofs.Text Proofs.Sip Proofs.SipMsg Proofs.SipRead.
Import ListNotations. Local Open Scope list_scope. Local Open Scope Z_scope.
Local Ltac Zify.zify_post_hook ::= Z.div_mod_to_equations.

(** * Headers on lines *)
Definition hvalue (p : bytes * list bytes) : bytes := match snd p with v :: _ => v | [] => [] end.
Definition hline (p : bytes * list bytes) : bytes := fst p ++ [58; 32] ++ hvalue p.
Lemma header_bytes_lines m : Forall plain_header m -> header_bytes m = with_crlf (map hline m).
Proof.
  induction 1 as [|[k vs] m [Hk [v [Hv _]]] Hm IH]; [reflexivity|]. cbn [fst snd] in Hv. subst vs. unfold header_bytes, with_crlf in *. cbn [flat_map map fst snd].
  rewrite IH. unfold hline, hvalue. cbn [fst snd]. rewrite <- !app_assoc. cbn [app]. reflexivity.
Qed.
Lemma lower_name_lower k : lower_name k -> to_lower k = k.
Proof.
  intros [_ H]. rewrite to_lower_ascii.
  - rewrite <- (map_id k) at 2. apply map_ext_in. intros c Hc. rewrite Forall_forall in H. specialize (H _ Hc). destruct H as [Hg [Hu _]]. unfold graphic in Hg.
    unfold lower_rune. replace (btw 65 c 90) with false by (symmetry; apply btw_false; lia). replace (c =? 304) with false by lia. replace (c =? 8490) with false by lia. reflexivity.
  - eapply Forall_impl; [|exact H]. cbn. intros c [Hg _]. unfold graphic in Hg. unfold ascii. lia.
Qed.
Lemma solid_one_line v : one_line v -> solid (fun c => c =? 32) v.
Proof.
  intros [_ [H1 H2]]. destruct v as [|c v]; [exact I|]. split.
  - apply Z.eqb_neq. intros ->. now apply (H1 v).
  - assert (G : c :: v <> []) by discriminate. destruct (exists_last G) as [t [y E]]. rewrite E in *. rewrite last_last. apply Z.eqb_neq. intros ->. now apply (H2 t).
Qed.
Lemma parse_header_plain k v m s : lower_name k -> one_line v -> s_headers s = Some m -> ~ In k (map fst m) ->
  parse_header (hline (k, [v])) s = (with_last k (with_headers (Some (m ++ [(k, [v])])) s), Ok tt).
Proof.
  intros Hk Hv Hm Hn. pose proof (lower_name_lower k Hk) as Hlow. destruct Hk as [Hne Hk]. unfold hline, hvalue. cbn [fst snd].
  destruct k as [|c k]; [congruence|]. pose proof (Forall_inv Hk) as [Hg [_ _]]. unfold graphic in Hg. unfold parse_header. cbn [app].
  replace ((c =? 9) || (c =? 32)) with false by lia. change (c :: k ++ 58 :: 32 :: v) with ((c :: k) ++ 58 :: 32 :: v).
  rewrite cut_app by (eapply Forall_impl; [|exact Hk]; cbn; intros; lia).
  assert (T1 : trim_sp (c :: k) = c :: k).
  { unfold trim_sp. apply trim_by_solid, solid_none. eapply Forall_impl; [|exact Hk]. cbn. intros d [Hd _]. unfold graphic in Hd. lia. }
  assert (T2 : trim_sp (32 :: v) = v).
  { unfold trim_sp. assert (W : trim_by (fun c => c =? 32) ([32] ++ v ++ []) = v) by (apply trim_by_wrap; [repeat constructor|constructor|now apply solid_one_line]).
    rewrite app_nil_r in W. exact W. }
  cbv zeta. rewrite T1, T2, Hlow, Hm. unfold hvals, hlook. replace (mget (c :: k) m) with (@None (list bytes)); [|symmetry; now apply mget_none].
  cbn [app]. rewrite mset_app by assumption. reflexivity.
Qed.
Lemma run_headers hs : forall count s m, Forall plain_header hs -> NoDup (map fst hs) -> s_headers s = Some m ->
  (forall k, In k (map fst hs) -> ~ In k (map fst m)) -> 0 < count ->
  exists s', run_lines count (map hline hs) s = (s', Ok tt) /\ s_headers s' = Some (m ++ hs) /\
    exists l, s' = with_last l (with_headers (Some (m ++ hs)) s).
Proof.
  induction hs as [|[k vs] hs IH]; intros count s m Hp Hn Hm Hd Hc; cbn [map run_lines].
  - exists s. rewrite app_nil_r. split; [reflexivity|]. split; [assumption|]. exists (s_last s). destruct s. cbn in *. now subst.
  - inversion Hp as [|x y [Hk [v [Hv Hol]]] Hp']; subst. cbn [fst snd] in *. subst vs. cbn [map fst] in Hn, Hd. inversion Hn as [|x y N1 N2]; subst.
    replace (count =? 0) with false by lia. rewrite (parse_header_plain k v m s) by (assumption || (apply Hd; now left)).
    destruct (IH (count + 1) (with_last k (with_headers (Some (m ++ [(k, [v])])) s)) (m ++ [(k, [v])])) as [s' [E1 [E2 [l E3]]]].
    + assumption.
    + assumption.
    + reflexivity.
    + intros k' Hk' C. rewrite map_app in C. apply in_app_or in C. destruct C as [C|[C|[]]]; [now apply (Hd k'); [right|]|]. cbn in C. subst. contradiction.
    + lia.
    + rewrite <- app_assoc in E2, E3. exists s'. split; [assumption|]. split; [assumption|]. exists l. rewrite E3. destruct s. reflexivity.
Qed.
Lemma without_app bad a b : without bad (a ++ b) <-> without bad a /\ without bad b.
Proof. unfold without. apply Forall_app. Qed.
Lemma without_sub bad bad' a : (forall c, In c bad' -> In c bad) -> without bad a -> without bad' a.
Proof. intros H. apply Forall_impl. intros c Hc Hb. auto. Qed.
Lemma hline_ok p : plain_header p -> hline p <> [] /\ without [13; 10] (hline p).
Proof.
  destruct p as [k vs]. intros [[Hne Hk] [v [Hv [Hw _]]]]. cbn [fst snd] in *. subst vs. unfold hline, hvalue. cbn [fst snd]. split; [destruct k; [congruence|discriminate]|].
  apply without_app. split; [|apply without_app; split; [repeat constructor; cbn; lia|assumption]].
  eapply Forall_impl; [|exact Hk]. cbn. intros c [Hg _]. unfold graphic in Hg. lia.
Qed.

(** * The first line *)
Definition first_text (s : sip) : bytes :=
  if s_isresp s then version_string (s_version s) ++ [32] ++ status_string (s_code s) ++ [32] ++ status_text (s_code s)
  else match s_request s with
       | Some r => method_string (s_method s) ++ [32] ++ request_bytes r ++ [32] ++ version_string (s_version s)
       | None => []
       end.
Lemma without_graphic s : Forall graphic s -> without [32; 13; 10] s.
Proof. apply Forall_impl. unfold graphic. cbn. intros; lia. Qed.
Lemma semicolon_graphic a : plain_args a -> Forall graphic (semicolon_string a).
Proof.
  intros [_ H]. rewrite semicolon_entries. induction H as [|p a Hp Ha IH]; [constructor|]. cbn [flat_map]. cbn [app]. constructor; [unfold graphic; lia|].
  apply Forall_app. split; [now apply plain_entry|assumption].
Qed.
Lemma request_bytes_plain r : plain_request r -> without [32; 13; 10] (request_bytes r).
Proof.
  intros [Ht [Hu [Hh [Hp Ha]]]]. unfold request_bytes.
  assert (Hs : without [32; 13; 10] (semicolon_string (r_args r))) by (apply without_graphic, semicolon_graphic; assumption).
  assert (Hpp : without [32; 13; 10] (port_part (r_port r))).
  { unfold port_part. destruct (r_port r) as [|c p] eqn:E; [constructor|]. apply without_app. split; [repeat constructor; cbn; lia|].
    eapply without_sub; [|exact Hp]. cbn. tauto. }
  assert (Htt : without [32; 13; 10] (r_type r)) by (destruct Ht as [-> | [-> | ->]]; repeat constructor; cbn; lia).
  assert (Huu : without [32; 13; 10] (r_user r)) by (eapply without_sub; [|exact Hu]; cbn; tauto).
  assert (Hhh : without [32; 13; 10] (r_host r)) by (eapply without_sub; [|exact Hh]; cbn; tauto).
  repeat (apply without_app; split); auto; repeat constructor; cbn; lia.
Qed.
Lemma new_request_plain r : plain_request r -> new_request (request_bytes r) = Ok (request_stored r).
Proof.
  intros [Ht [Hu [Hh [Hp Ha]]]]. destruct r as [t u h p a src]. cbn [r_type r_user r_host r_port r_args] in *.
  apply (new_request_text t u h p a src); auto; (eapply without_sub; [|eassumption]; cbn; tauto).
Qed.
Lemma version_string_ok v : without [32; 13; 10] (version_string v) /\ version_string v <> [] /\ has_prefix (version_string v) (str "SIP") = true.
Proof. unfold version_string. destruct (v =? 1); (split; [repeat constructor; cbn; lia|split; [discriminate|reflexivity]]). Qed.
Lemma itoa_plain n : without [32; 13; 10] (itoa n).
Proof.
  destruct (Z_lt_le_dec n 0) as [H|H].
  - destruct (itoa_neg n H) as [d [-> [Hd _]]]. constructor; [cbn; lia|]. eapply Forall_impl; [|exact Hd]. cbn. intros; lia.
  - destruct (itoa_digits n H) as [Hd _]. eapply Forall_impl; [|exact Hd]. cbn. intros; lia.
Qed.
Lemma status_text_ok c : without [13; 10] (status_text c).
Proof.
  unfold status_text. destruct (find _ status_texts) as [[k t]|] eqn:E; [|constructor]. apply find_some in E. destruct E as [E _].
  assert (F : Forall (fun p => without [13; 10] (snd p)) status_texts) by (unfold status_texts; repeat constructor; cbn; lia).
  rewrite Forall_forall in F. apply (F _ E).
Qed.
Lemma first_text_ok s : plain_message s -> without [13; 10] (first_text s) /\ first_text s <> [] /\ first_line s = Ok (first_text s ++ [13; 10]).
Proof.
  intros [Hf _]. unfold first_text, first_line. destruct (version_string_ok (s_version s)) as [V1 [V2 _]].
  assert (V : without [13; 10] (version_string (s_version s))) by (eapply without_sub; [|exact V1]; cbn; tauto).
  destruct (s_isresp s).
  - split; [|split].
    + repeat (apply without_app; split); auto; try (repeat constructor; cbn; lia); [|apply status_text_ok].
      eapply without_sub; [|apply itoa_plain]. cbn; tauto.
    + intros C. apply app_eq_nil in C. tauto.
    + rewrite <- !app_assoc. reflexivity.
  - destruct Hf as [Hm [r [Er Hr]]]. rewrite Er. split; [|split].
    + assert (Hq : without [13; 10] (request_bytes r)) by (eapply without_sub; [|apply request_bytes_plain; assumption]; cbn; tauto).
      apply without_app; split.
      * destruct (method_no_space (s_method s) Hm) as [M _].
        unfold method_string. replace (_ && _) with true by lia.
        assert (F : Forall (without [13; 10]) method_names) by (unfold method_names; repeat constructor; cbn; lia). rewrite Forall_forall in F. apply F.
        apply nth_In. change (length method_names) with 15%nat. lia.
      * constructor; [cbn; lia|]. apply without_app; split; [assumption|]. constructor; [cbn; lia|assumption].
    + intros C. apply app_eq_nil in C. destruct C as [_ C]. discriminate.
    + rewrite <- !app_assoc. reflexivity.
Qed.
Definition after_first (s : sip) (x : sip) : sip :=
  if s_isresp s then with_response true (s_code s) (status_text (s_code s)) (with_version (shown_version (s_version s)) x)
  else with_version (shown_version (s_version s))
         (with_request (s_method s) (match s_request s with Some r => Some (request_stored r) | None => None end) x).
Lemma parse_first_text s x : plain_message s -> parse_first_line (first_text s) x = (after_first s x, Ok tt).
Proof.
  intros [Hf _]. unfold first_text, after_first, parse_first_line. destruct (version_string_ok (s_version s)) as [V1 [V2 V3]].
  assert (V : without [32] (version_string (s_version s))) by (eapply without_sub; [|exact V1]; cbn; tauto).
  destruct (s_isresp s).
  - cbn [app]. rewrite split3_app; [|assumption|eapply without_sub; [|apply itoa_plain]; cbn; tauto]. rewrite V3, version_any.
    unfold status_string. rewrite atoi_itoa by assumption. destruct x. reflexivity.
  - destruct Hf as [Hm [r [Er Hr]]]. rewrite Er. destruct (method_no_space (s_method s) Hm) as [M1 M2]. cbn [app].
    rewrite split3_app; [|assumption|eapply without_sub; [|apply request_bytes_plain; assumption]; cbn; tauto].
    rewrite M2, method_ok, new_request_plain, version_any by assumption. destruct x. reflexivity.
Qed.

(** * The text of a message *)
Definition cl : bytes := str "content-length".
Definition blank_and_body (p : bytes) : bytes := match p with [] => [] | _ => [13; 10] ++ p end.
Lemma cl_plain n : 0 <= n -> plain_header (cl, [itoa n]).
Proof.
  intros Hn. split.
  - split; [discriminate|]. unfold cl. cbn. repeat constructor; unfold graphic; lia.
  - exists (itoa n). split; [reflexivity|]. destruct (itoa_digits n Hn) as [Hd [Hne _]]. split; [|split].
    + eapply Forall_impl; [|exact Hd]. cbn. intros; lia.
    + intros t C. rewrite C in Hd. inversion Hd; lia.
    + intros t C. rewrite C in Hd. apply Forall_app in Hd. destruct Hd as [_ Hd]. inversion Hd; lia.
Qed.
Lemma mset_plain n m : 0 <= n -> plain_headers m -> plain_headers (mset cl [itoa n] m).
Proof.
  intros Hn [H1 H2]. split; [now apply mset_nodup|]. pose proof (cl_plain n Hn) as Hc. clear H1. induction H2 as [|[k v] m Hp Hm IH]; cbn [mset]; [constructor; [exact Hc|constructor]|].
  destruct (bytes_eqb cl k); constructor; assumption.
Qed.
Lemma perm_plain m m' : Permutation m m' -> plain_headers m -> plain_headers m'.
Proof.
  intros P [H1 H2]. split; [eapply Permutation_NoDup; [apply Permutation_map; exact P|assumption]|].
  eapply Permutation_Forall; eassumption.
Qed.
(** The message's header map as `range` visits it when the message is written. *)
Definition written_headers (order : hmap -> hmap) (s : sip) : hmap :=
  match s_headers s with Some m => order (mset cl [itoa (len (s_payload s))] m) | None => [] end.
Lemma to_lower_cl : to_lower cl = cl.
Proof. reflexivity. Qed.
Lemma sip_bytes_text order s : plain_message s -> iteration order ->
  exists s', sip_bytes order s = Ok (s', with_crlf (first_text s :: map hline (written_headers order s)) ++ blank_and_body (s_payload s)) /\
    plain_headers (written_headers order s) /\ (forall k, mget k (written_headers order s) =
      if bytes_eqb k cl then Some [itoa (len (s_payload s))] else hlook (s_headers s) k).
Proof.
  intros Hm Ho. pose proof (first_text_ok s Hm) as [_ [_ Hfl]]. destruct Hm as [Hf [[m [Em Hp]] _]].
  pose proof (len_nonneg (s_payload s)) as Hpl.
  assert (Hw : plain_headers (written_headers order s)).
  { unfold written_headers. rewrite Em. eapply perm_plain; [apply Ho|]. now apply mset_plain. }
  unfold sip_bytes. rewrite Hfl. cbn [bind]. unfold set_content_length, set_first.
  assert (Hhs : forall b : bool, s_headers (if b then s else with_request (s_method s) (match s_request s with Some r => Some (request_stored r) | None => None end) s) = Some m) by (intros []; exact Em).
  cbv zeta. rewrite Hhs. cbn [bind]. eexists. split; [|split; [exact Hw|]].
  - do 2 f_equal. replace (s_payload _) with (s_payload s) by (destruct (s_isresp s); reflexivity). change (to_lower (str "content-length")) with cl.
    replace (s_payload _) with (s_payload s) by (destruct (s_isresp s); reflexivity).
    unfold with_crlf. cbn [flat_map]. rewrite <- !app_assoc. do 2 f_equal. cbn [app]. f_equal. f_equal.
    unfold written_headers in *. rewrite Em in *. rewrite header_bytes_lines by apply Hw. reflexivity. destruct (s_isresp s); cbn [s_payload with_headers with_request]; destruct (s_payload s); reflexivity.
  - intros k. unfold written_headers. rewrite Em. cbn [hlook]. rewrite (mget_perm (mset cl [itoa (len (s_payload s))] m)); [|now apply mset_nodup, Hp|apply Ho].
    rewrite mget_mset. reflexivity.
Qed.
