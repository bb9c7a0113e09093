(** Proofs about messages that follow one another. *)
From Coq Require Import String Permutation.
From Verif Require Import Base.Go Base.GoFacts Base.IO Base.Text Model.Sip Spec.Sip Spec.SipLine Spec.SipAddr Spec.SipWhole Spec.SipMany Spec.SipPipe
  Proofs.Text Proofs.Sip Proofs.SipMsg Proofs.SipText Proofs.SipWhole Proofs.SipMany Props.SipMany.
Import ListNotations. Local Open Scope list_scope. Local Open Scope Z_scope.

Lemma method_line m : 1 <= m <= 15 -> without [58; 32; 9] (method_string m) /\ method_string m <> [].
Proof.
  intros H. unfold method_string. replace (_ && _) with true by lia. assert (F : Forall (fun n => without [58; 32; 9] n /\ n <> []) method_names) by (unfold method_names; repeat constructor; cbn; try lia; discriminate).
  rewrite Forall_forall in F. apply F. apply nth_In. change (length method_names) with 15%nat. lia.
Qed.
Lemma status_no_colon c : without [58] (status_text c).
Proof.
  unfold status_text. destruct (find _ status_texts) as [[k t]|] eqn:E; [|constructor]. apply find_some in E. destruct E as [E _].
  assert (F : Forall (fun p => without [58] (snd p)) status_texts) by (unfold status_texts; repeat constructor; cbn; lia).
  rewrite Forall_forall in F. apply (F _ E).
Qed.
Lemma itoa_no_colon n : without [58] (itoa n).
Proof.
  destruct (Z_lt_le_dec n 0) as [H|H].
  - destruct (itoa_neg n H) as [d [-> [Hd _]]]. constructor; [cbn; lia|]. eapply Forall_impl; [|exact Hd]. cbn. intros; lia.
  - destruct (itoa_digits n H) as [Hd _]. eapply Forall_impl; [|exact Hd]. cbn. intros; lia.
Qed.
Lemma not_cont c l : c <> 32 -> c <> 9 -> ~ continuation (c :: l).
Proof. intros H1 H2 [t [E|E]]; congruence. Qed.

(** A first line among the header lines. *)
Lemma first_field s ls gs : text_message s -> fields ls gs -> fields (ls ++ [first_text s]) (gs ++ first_as_field s).
Proof.
  intros (Hf & _) F. unfold first_text, first_as_field. destruct (s_isresp s).
  - rewrite app_nil_r. apply F_other; [exact F| |].
    + unfold version_string. destruct (_ =? 1); intros [t [E|E]]; discriminate E.
    + change (str ":") with [58]. repeat (apply without_app; split); try (repeat constructor; cbn; lia); [unfold version_string; destruct (_ =? 1); repeat constructor; cbn; lia|apply itoa_no_colon|apply status_no_colon].
  - destruct Hf as (Hm & r & Er & Hr). rewrite Er. destruct (method_line _ Hm) as [M1 M2]. pose proof (request_bytes_plain r Hr) as Hq. unfold request_bytes in Hq.
    destruct Hr as (Ht & Hu & _). set (b := r_user r ++ str "@" ++ r_host r ++ port_part (r_port r) ++ semicolon_string (r_args r) ++ str " " ++ version_string (s_version s)).
    assert (Tt : without [58; 32] (r_type r) /\ r_type r <> []) by (destruct Ht as [-> | [-> | ->]]; (split; [repeat constructor; cbn; lia|discriminate])).
    eapply (F_field _ _ _ (method_string (s_method s) ++ str " " ++ r_type r) b); [exact F| | | | |].
    + destruct (method_string (s_method s)) as [|c t]; [congruence|]. apply Forall_inv in M1. cbn [app]. apply not_cont; cbn in M1; lia.
    + unfold b, request_bytes. rewrite <- !app_assoc. reflexivity.
    + change (str ":") with [58]. apply without_app. split; [eapply without_sub; [|exact M1]; cbn; tauto|]. apply without_app. split; [repeat constructor; cbn; lia|]. eapply without_sub; [|apply Tt]. cbn; tauto.
    + exists [], []. rewrite app_nil_r. split; [reflexivity|]. split; [constructor|]. split; [constructor|]. split; intros c u E.
      * destruct (method_string (s_method s)) as [|c0 t]; [congruence|]. injection E as -> _. apply Forall_inv in M1. cbn in M1. lia.
      * destruct Tt as [T1 T2]. destruct (exists_last T2) as (t0 & c0 & E0). rewrite E0 in T1, E. apply without_app in T1 as [_ T1]. apply Forall_inv in T1.
        rewrite !app_assoc in E. apply app_inj_tail in E as [_ <-]. cbn in T1. lia.
    + exists [], []. rewrite app_nil_r. split; [reflexivity|]. split; [constructor|]. split; [constructor|]. split; intros c u E; unfold b in E.
      * destruct (r_user r) as [|c0 t]; cbn [app] in E; [injection E as <- _; vm_compute; congruence|]. injection E as -> _. apply Forall_inv in Hu. cbn in Hu. lia.
      * unfold version_string in E. rewrite !app_assoc in E. destruct (s_version s =? 1);
          [change (str "SIP/1.0") with ([83; 73; 80; 47; 49; 46] ++ [48]) in E|change (str "SIP/2.0") with ([83; 73; 80; 47; 50; 46] ++ [48]) in E]; rewrite app_assoc in E; apply app_inj_tail in E as [_ <-]; lia.
Qed.

Definition lines_sent (m : sending) : list bytes := first_text (sent_message m) :: sent_lines (headers_sent m).
Lemma sent_facts size m : is_sent size m ->
  text_message (sent_message m) /\ text_headers (headers_sent m) /\ Forall line_good (lines_sent m) /\ Forall (fun t => len t + 2 <= size) (lines_sent m) /\
  text_sent m = with_crlf (lines_sent m) ++ blank_and_body (s_payload (sent_message m)) /\
  (forall k, values (received (headers_sent m)) k = value_sent k m) /\ value_sent (str "content-length") m = [itoa (len (s_payload (sent_message m)))].
Proof.
  intros (order & s1 & m1 & Tm & Ho & Hb & H1 & El & Hn & [F1 F2]). destruct (visited _ _ _ _ _ Tm Ho Hb H1) as (Et & Th & Hfl & K). rewrite <- El in Et, Th, K.
  destruct (first_text_ok _ (text_plain (sent_message m) Tm)) as (G1 & G2 & _). change (first_text (with_headers (Some []) (sent_message m))) with (first_text (sent_message m)) in G1, G2.
  split; [exact Tm|]. split; [exact Th|]. split; [|split; [|split; [|split]]].
  - constructor; [split; assumption|exact (lines_good _ (sent_good _ (proj2 Th) None I))].
  - constructor; [|exact F2]. specialize (F1 _ Hfl). rewrite len_app in F1. exact F1.
  - assert (N0 : forall k, ~ In (k, []) (headers_sent m)) by (intros k X; rewrite El in X; apply (Permutation_in _ (Permutation_sym (Ho m1))) in X; exact (Hn k X)).
    assert (W : within false (headers_sent m) = false).
    { apply within_finished. assert (NE : headers_sent m <> []) by (intros E; assert (X : In (cl, [itoa (len (s_payload (sent_message m)))]) (headers_sent m)) by (apply K; now rewrite bytes_eqb_refl); rewrite E in X; destruct X).
      destruct (exists_last NE) as (l0 & [k [|v vs]] & E); [exfalso; apply (N0 k); rewrite E; apply in_or_app; right; now left|]. exists l0, k, v, vs. exact E. }
    pose proof (sent_text (headers_sent m) None) as St. cbn [opened app] in St. change (lines_of (sent None (headers_sent m))) with (sent_lines (headers_sent m)) in St. rewrite W, app_nil_r in St. rewrite St in Et.
    rewrite Et. unfold lines_sent. rewrite with_crlf_cons. reflexivity.
  - intros k. destruct (C196_merged _ _ _ _ _ Tm Ho Hb H1 Hn) as [_ V]. rewrite El, V, H1. cbn [hlook]. unfold value_sent. rewrite El. rewrite (mget_perm m1 (order m1)); [reflexivity| |apply Ho].
    rewrite El in Th. eapply Permutation_NoDup; [apply Permutation_map, Permutation_sym, Ho|exact (proj1 Th)].
  - unfold value_sent. change (str "content-length") with cl. rewrite (in_mget cl [itoa (len (s_payload (sent_message m)))] (headers_sent m)); [|exact (proj1 Th)|apply K; now rewrite bytes_eqb_refl].
    unfold one_value. cbn [flat_map]. rewrite app_nil_r. f_equal. apply trim_sp_number, len_nonneg.
Qed.
Lemma received_fields size m ls gs : is_sent size m -> fields ls gs -> fields (ls ++ sent_lines (headers_sent m)) (gs ++ received (headers_sent m)).
Proof. intros H F. destruct (sent_facts size m H) as (_ & (_ & Ht) & _). exact (sent_fields _ (sent_good _ Ht None I) ls gs F). Qed.
Lemma more_messages size ms : Forall (is_sent size) ms -> forall ls gs, fields ls gs ->
  fields (ls ++ flat_map lines_sent ms) (gs ++ flat_map (fun m' => first_as_field (sent_message m') ++ received (headers_sent m')) ms).
Proof.
  induction 1 as [|m ms Hm _ IH]; intros ls gs F; cbn [flat_map]; [now rewrite !app_nil_r|].
  destruct (sent_facts size m Hm) as (Tm & _). pose proof (received_fields size m _ _ Hm (first_field _ _ _ Tm F)) as G. rewrite <- !app_assoc in G. unfold lines_sent at 1. cbn [app] in *.
  specialize (IH _ _ G). rewrite <- !app_assoc in IH. cbn [app] in IH. rewrite <- !app_assoc. exact IH.
Qed.
(** The lines of all of them. *)
Lemma all_lines size ms : Forall (is_sent size) ms -> Forall line_good (flat_map lines_sent ms) /\ Forall (fun t => len t + 2 <= size) (flat_map lines_sent ms).
Proof.
  induction 1 as [|m ms Hm _ [IH1 IH2]]; cbn [flat_map]; [split; constructor|]. destruct (sent_facts size m Hm) as (_ & _ & G & L & _). split; apply Forall_app; split; assumption.
Qed.
Lemma all_text size ms : Forall (fun m => is_sent size m /\ s_payload (sent_message m) = []) ms -> flat_map text_sent ms = with_crlf (flat_map lines_sent ms).
Proof.
  induction 1 as [|m ms [Hm Hp] _ IH]; cbn [flat_map]; [reflexivity|]. destruct (sent_facts size m Hm) as (_ & _ & _ & _ & E & _). rewrite E, Hp, IH. cbn [blank_and_body]. rewrite app_nil_r. symmetry. apply with_crlf_app.
Qed.
Lemma name_spaced s k : text_message s -> ~ In 32 k -> values (first_as_field s) k = [].
Proof.
  intros (Hf & _) N. unfold first_as_field. destruct (s_isresp s); [reflexivity|]. destruct Hf as (Hm & r & Er & Hr & _). rewrite Er. unfold values. cbn [filter fst].
  destruct (bytes_eqb _ k) eqn:E; [|reflexivity]. exfalso. apply N. apply bytes_eqb_eq in E. subst k.
  assert (A : Forall Proofs.Text.ascii (method_string (s_method s) ++ str " " ++ r_type r)).
  { apply Forall_app. split; [|apply Forall_app; split; [repeat constructor; vm_compute; congruence|destruct Hr as [-> | [-> | ->]]; repeat constructor; vm_compute; congruence]].
    unfold method_string. replace (_ && _) with true by lia. assert (F : Forall (Forall Proofs.Text.ascii) method_names) by (unfold method_names; repeat constructor; vm_compute; congruence).
    rewrite Forall_forall in F. apply F. apply nth_In. change (length method_names) with 15%nat. lia. }
  rewrite to_lower_ascii by exact A. rewrite !map_app. apply in_or_app. right. left. reflexivity.
Qed.
Lemma values_app a b k : values (a ++ b) k = values a k ++ values b k.
Proof. unfold values. now rewrite filter_app, map_app. Qed.
Lemma stream_values size m ms k : is_sent size m -> Forall (is_sent size) ms -> ~ In 32 k -> values (fields_of m ms) k = flat_map (value_sent k) (m :: ms).
Proof.
  intros Hm Hs N. unfold fields_of. rewrite values_app. cbn [flat_map]. destruct (sent_facts size m Hm) as (_ & _ & _ & _ & _ & V & _). rewrite V. f_equal.
  clear Hm V m. induction Hs as [|m ms Hm _ IH]; [reflexivity|]. cbn [flat_map]. rewrite values_app, values_app, IH. destruct (sent_facts size m Hm) as (Tm & _ & _ & _ & _ & V & _). rewrite V, (name_spaced _ _ Tm N). reflexivity.
Qed.
