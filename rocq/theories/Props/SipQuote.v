(** C194: parameter values with control characters, as written by CommaString and read back. *)
From Coq Require Import String.
From Verif Require Import Base.Go Base.GoFacts Base.IO Base.Text Model.Sip Spec.Sip Spec.SipParams Spec.SipNames Spec.SipUtf8 Spec.SipQuote
  Proofs.Text Proofs.Sip Proofs.SipMsg Proofs.SipHeaders Proofs.SipParams Proofs.SipUtf8 Proofs.SipQuote Props.SipParams Props.SipNames.
Import ListNotations. Local Open Scope list_scope. Local Open Scope Z_scope.

(** ** C194 *)
(** Every value of ASCII without DEL and of bytes with which no character begins comes back as something, and only one thing. *)
Theorem C194_values : forall v, Forall (fun c => 0 <= c < 127) v -> exists w, comes_back v w.
Proof.
  induction 1 as [|c v Hc H [w IH]]; [eexists; constructor|]. destruct (Z.lt_ge_cases c 32); [exists (left_of c ++ w); apply Cb_control; [lia|exact IH]|].
  exists (c :: w). apply Cb_char; [unfold printable; lia|exact IH].
Qed.
Theorem C194_one_answer : forall v w w', comes_back v w -> comes_back v w' -> w = w'.
Proof.
  intros v w w' H. revert w'. induction H as [|c v w Hc H IH|c v w Hc H IH|b v w Hb Hs H IH]; intros w' H'; inversion H'; subst; unfold printable in *; try lia; try reflexivity; f_equal; apply IH; assumption.
Qed.
(** Credentials "Digest " (in any case) and CommaString of parameters: NewSIPAuth reads what the values come back as. *)
Theorem C194_read_back : forall prefix params params', params <> [] -> same_ignoring_case prefix (str "digest ") -> NoDup (map fst params) ->
  Forall2 (fun p p' => param_key (fst p) /\ fst p' = fst p /\ comes_back (snd p) (snd p')) params params' ->
  exists a, new_auth (prefix ++ comma_string params) = Ok a /\ same_map (a_args a) params'.
Proof.
  intros prefix params params' NE Hp ND F. destruct params as [|p ps]; [now elim NE|]. inversion F as [|? p' ? ps' Hb Fs]; subst. clear NE.
  rewrite comma_texts. set (rest := qtext p ++ flat_map (fun q => 44 :: 32 :: qtext q) ps).
  assert (PR : Forall printable rest).
  { apply Forall_app. split; [apply (qtext_element p p' Hb)|]. clear - Fs. induction Fs as [|q q' l l' Hq Fs IH]; [constructor|]. cbn [flat_map]. apply Forall_app. split; [|exact IH].
    constructor; [unfold printable; lia|]. constructor; [unfold printable; lia|]. apply (qtext_element q q' Hq). }
  assert (A : Forall ascii rest) by (eapply Forall_impl; [|exact PR]; unfold printable, ascii; intros; lia).
  assert (EL : elements rest (map qelem (p' :: ps'))) by (apply (comma_elements ps p ps' p' Hb Fs []); [constructor|intros []]).
  assert (T : trimmed rest rest).
  { assert (SH : exists c s, rest = c :: s ++ [34] /\ graphic c).
    { assert (KP : param_key (fst p)) by apply Hb. destruct KP as (N & G & _). subst rest. unfold qtext at 1. destruct (fst p) as [|c k]; [now elim N|]. apply Forall_inv in G.
      assert (L : exists s, quote (snd p) ++ flat_map (fun q => 44 :: 32 :: qtext q) ps = s ++ [34]).
      { clear. revert p. induction ps as [|q ps IH]; intros p; cbn [flat_map].
        - exists (34 :: flat_map quote_rune (decode_runes (snd p))). rewrite app_nil_r. reflexivity.
        - destruct (IH q) as [s E]. exists (quote (snd p) ++ 44 :: 32 :: fst q ++ 61 :: s). unfold qtext at 1. cbn [app].  repeat (rewrite <- app_assoc; cbn [app]). do 5 f_equal. rewrite E. reflexivity. }
      destruct L as [s L]. exists c, (k ++ 61 :: s). split; [|exact G]. repeat (rewrite <- app_assoc; cbn [app]). rewrite L. reflexivity. }
    destruct SH as (c & s & -> & G). apply (trimmed_blanks [] c s); [constructor|exact G]. }
  assert (D : digest (prefix ++ rest) rest).
  { exists prefix. split; [reflexivity|]. split; [exact Hp|]. subst rest. unfold qtext. intros Z. apply app_eq_nil in Z as [Z _]. apply app_eq_nil in Z as [_ Z]. discriminate. }
  assert (KS : Forall (fun q => param_key (fst q)) (p' :: ps') /\ map fst (p' :: ps') = map fst (p :: ps)).
  { clear - F. induction F as [|q q' l l' (K & E & _) F [IH1 IH2]]; [split; [constructor|reflexivity]|]. split; [constructor; [rewrite E; exact K|exact IH1]|]. cbn [map]. rewrite E, IH2. reflexivity. }
  destruct KS as [KS EK]. destruct (C191_digest _ _ _ _ D A T EL) as [_ R].
  destruct R as (a & E1 & _ & M).
  { intros B. apply Exists_exists in B as (e & He & B). apply in_map_iff in He as (q & <- & Hq). rewrite Forall_forall in KS. exact (proj2 (qelem_param q (KS q Hq)) B). }
  exists a. split; [exact E1|]. intros k. rewrite <- EK in ND. pose proof (last_value_in _ KS ND k) as LV.
  destruct (mget k (a_args a)) as [v|] eqn:G1.
  - apply M, LV in G1. symmetry. exact G1.
  - destruct (mget k (p' :: ps')) as [v|] eqn:G2; [|reflexivity]. assert (G3 : mget k (a_args a) = Some v) by (apply M, LV; reflexivity). congruence.
Qed.
(** A value comes back as it was just if every character of it prints. *)
Theorem C194_kept_exactly : forall v w, comes_back v w -> (w = v <-> Forall printable v).
Proof.
  intros v w H. split; [intros <-; eapply back_printable; exact H|]. intros P. induction H as [|c v w Hc H IH|c v w Hc H IH|b v w Hb Hs H IH]; [reflexivity| | |].
  - f_equal. apply IH. inversion P; assumption.
  - apply Forall_inv in P. unfold printable in P. lia.
  - apply Forall_inv in P. unfold printable in P. lia.
Qed.
(** Whatever the values, CommaString writes one line: no control character, and the same of a display name in an address. *)
Lemma quote_line v : is_bytes v -> Forall (fun c => 32 <= c) (quote v).
Proof.
  intros B. unfold quote. apply Forall_app. split; [repeat constructor; lia|]. apply Forall_app. split; [|repeat constructor; lia].
  apply Forall_forall. intros x Hx. apply in_flat_map in Hx as ((r & src) & Hr & Hx).
  assert (HX : forall d, 0 <= d < 16 -> 32 <= hex d) by (intros d Hd; unfold hex; destruct (d <? 10); lia).
  assert (HB : forall l, decoded v l -> In (r, src) l -> (0 <= r < 128 /\ src = [r]) \/ (exists b, 128 <= b < 256 /\ src = [b] /\ 128 <= r) \/ Forall (fun c => 128 <= c) src /\ 128 <= r /\ (2 <= length src)%nat).
  { clear - B. intros l D. revert B. induction D as [|b t l Hb D IH|b t l Hb D IH|b0 b1 t l H0 H1 D IH|b0 b1 b2 t l H0 H1 H2 D IH|b0 b1 b2 b3 t l H0 H1 H2 H3 D IH]; intros B I; [destruct I| | | | |];
    (destruct I as [I|I]; [injection I as <- <-|apply IH; [|exact I]; unfold is_bytes in *; repeat match goal with H : Forall _ (_ :: _) |- _ => apply Forall_cons_iff in H as [? H] end; assumption]).
    - left. apply Forall_inv in B. unfold byte in B. split; [lia|reflexivity].
    - right; left. apply Forall_inv in B. unfold byte in B. exists b. split; [lia|]. split; [reflexivity|]. unfold rune_error. lia.
    - right; right. split; [repeat constructor; lia|]. cbn [length]. lia.
    - right; right. pose proof (second_ok_range _ _ H1). split; [repeat constructor; lia|]. cbn [length]. split; [|lia]. unfold second_ok in H1. destruct (b0 =? 224) eqn:E; [apply btw_spec in H1|]; lia.
    - right; right. pose proof (second_ok_range _ _ H1). split; [repeat constructor; lia|]. cbn [length]. split; [|lia]. unfold second_ok in H1. destruct (b0 =? 224) eqn:E; [lia|]. destruct (b0 =? 237) eqn:E'; [lia|]. destruct (b0 =? 240) eqn:E''; [apply btw_spec in H1|]; lia. }
  assert (BB : forall b, 0 <= b < 256 -> In x [92; 120; hex (b / 16); hex (b mod 16)] -> 32 <= x).
  { intros b Hb I. pose proof (HX (b / 16)) as H1. pose proof (HX (b mod 16)) as H2. pose proof (Z.mod_pos_bound b 16 ltac:(lia)). pose proof (Z.div_pos b 16 ltac:(lia) ltac:(lia)). assert (b / 16 < 16) by (apply Z.div_lt_upper_bound; lia).
    cbn [In] in I. destruct I as [I|[I|[I|[I|[]]]]]; lia. }
  destruct (HB _ (decode_decoded v) Hr) as [[R ->]|[(b & Hb & -> & R)|(S & R & L)]].
  - unfold quote_rune in Hx. destruct ((r =? 34) || (r =? 92)) eqn:E; [cbn [In] in Hx; lia|]. replace (r <? 128) with true in Hx by lia.
    destruct (btw 32 r 126) eqn:E1; [apply btw_spec in E1; cbn [In] in Hx; lia|].
    destruct (r =? 7); [cbn [In] in Hx; lia|]. destruct (r =? 8); [cbn [In] in Hx; lia|]. destruct (r =? 12); [cbn [In] in Hx; lia|]. destruct (r =? 10); [cbn [In] in Hx; lia|].
    destruct (r =? 13); [cbn [In] in Hx; lia|]. destruct (r =? 9); [cbn [In] in Hx; lia|]. destruct (r =? 11); [cbn [In] in Hx; lia|]. apply (BB r); [lia|exact Hx].
  - unfold quote_rune in Hx. replace ((r =? 34) || (r =? 92)) with false in Hx by lia. replace (r <? 128) with false in Hx by lia. apply (BB b); [lia|exact Hx].
  - unfold quote_rune in Hx. replace ((r =? 34) || (r =? 92)) with false in Hx by lia. replace (r <? 128) with false in Hx by lia.
    destruct src as [|s0 [|s1 src]]; cbn [length] in L; [lia|lia|]. rewrite Forall_forall in S. specialize (S x Hx). lia.
Qed.
Theorem C194_one_line : forall params, Forall (fun p => param_key (fst p) /\ is_bytes (snd p)) params -> Forall (fun c => 32 <= c) (comma_string params).
Proof.
  intros params H. destruct params as [|p ps]; [constructor|]. rewrite comma_texts.
  assert (Q : forall q, param_key (fst q) /\ is_bytes (snd q) -> Forall (fun c => 32 <= c) (qtext q)).
  { intros q [(_ & G & _) B]. apply Forall_app. split; [eapply Forall_impl; [|exact G]; unfold graphic; cbn; intros; lia|]. constructor; [lia|]. now apply quote_line. }
  inversion H as [|? ? H1 H2]; subst. apply Forall_app. split; [now apply Q|]. clear H H1. induction H2 as [|q l Hq H IH]; [constructor|]. cbn [flat_map]. apply Forall_app. split; [|exact IH].
  constructor; [lia|]. constructor; [lia|]. now apply Q.
Qed.
Theorem C194_name_one_line : forall name, is_bytes name -> forall ty us host port, Forall (fun c => 32 <= c) (ty ++ us ++ host ++ port) ->
  Forall (fun c => 32 <= c) (user_bytes (mkUser ty name us host port [] [])).
Proof.
  intros name B ty us host port H. apply Forall_app in H as [H1 H]. apply Forall_app in H as [H2 H]. apply Forall_app in H as [H3 H4].
  unfold user_bytes. cbn [u_name u_type u_user u_host u_port u_args semicolon_string flat_map]. repeat (apply Forall_app; split); try assumption; try (repeat constructor; lia).
  - unfold name_part. destruct name as [|c name]; [constructor|]. apply Forall_app. split; [|repeat constructor; lia]. destruct (bytes_eqb (c :: name) (str "Anonymous")) eqn:E; [|now apply quote_line].
    apply bytes_eqb_eq in E. rewrite E. repeat constructor; vm_compute; discriminate.
  - unfold port_part. destruct port; [constructor|]. constructor; [lia|]. exact H4.
Qed.
Print Assumptions C194_values.
Print Assumptions C194_one_answer.
Print Assumptions C194_read_back.
Print Assumptions C194_kept_exactly.
Print Assumptions C194_one_line.
Print Assumptions C194_name_one_line.
(** A line break comes back as the letters r and n; the byte 255 as xff. *)
Definition ex_params : args := [(str "realm", str "a" ++ [13; 10] ++ str "b"); (str "nonce", [1; 255; 34])].
Definition ex_back : args := [(str "realm", str "arnb"); (str "nonce", str "x01xff" ++ [34])].
Example C194_example : Forall2 (fun p p' => param_key (fst p) /\ fst p' = fst p /\ comes_back (snd p) (snd p')) ex_params ex_back /\ NoDup (map fst ex_params) /\
  exists a, new_auth (str "Digest " ++ comma_string ex_params) = Ok a /\ a_args a = ex_back.
Proof.
  split; [|split].
  - constructor; [|constructor; [|constructor]]; (split; [split; [discriminate|split; repeat constructor; try (vm_compute; discriminate); cbn; intros C; decompose [or] C; try discriminate; contradiction]|split; [reflexivity|]]).
    + apply Cb_char; [split; vm_compute; discriminate|]. apply (Cb_control 13); [lia|]. apply (Cb_control 10); [lia|]. apply Cb_char; [split; vm_compute; discriminate|constructor].
    + apply (Cb_control 1); [lia|]. apply (Cb_stray 255); [lia| |apply Cb_char; [unfold printable; lia|constructor]].
      intros r u R E. unfold scalar in R. pose proof (Z.div_pos r 64 ltac:(lia) ltac:(lia)). unfold utf8 in E. destruct (r <? 128) eqn:E1; [injection E as E _; lia|].
      destruct (r <? 2048) eqn:E2; [injection E as E _; assert (r / 64 < 32) by (apply Z.div_lt_upper_bound; lia); lia|].
      destruct (r <? 65536) eqn:E3; [injection E as E _; assert (r / 4096 < 16) by (apply Z.div_lt_upper_bound; lia); lia|].
      injection E as E _. assert (r / 262144 < 5) by (apply Z.div_lt_upper_bound; lia). lia.
  - repeat constructor; cbn; intuition discriminate.
  - eexists. split; vm_compute; reflexivity.
Qed.
