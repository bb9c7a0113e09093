From Coq Require Import String.
From Verif Require Import Base.Go Base.GoFacts Base.IO Base.Text Model.Sip Spec.Sip Spec.SipParams Spec.SipUtf8 Spec.SipQuote
  Proofs.Text Proofs.Sip Proofs.SipMsg Proofs.SipHeaders Proofs.SipAddr Proofs.SipParams Proofs.SipUtf8.
Import ListNotations. Local Open Scope list_scope. Local Open Scope Z_scope.
Local Ltac Zify.zify_post_hook ::= Z.div_mod_to_equations.

Lemma hex_hex d : 0 <= d < 16 -> hex d = hex_digit d.
Proof. intros H. assert (d = 0 \/ d = 1 \/ d = 2 \/ d = 3 \/ d = 4 \/ d = 5 \/ d = 6 \/ d = 7 \/ d = 8 \/ d = 9 \/ d = 10 \/ d = 11 \/ d = 12 \/ d = 13 \/ d = 14 \/ d = 15) by lia. intuition (subst; reflexivity). Qed.
Lemma hex_print d : 0 <= d < 16 -> 48 <= hex d <= 102 /\ hex d <> 92 .
Proof. intros H. unfold hex. destruct (d <? 10) eqn:E; lia. Qed.
Lemma left_printable b : 0 <= b < 256 -> exists x s, left_of b = x :: s /\ printable x /\ Forall (fun c => printable c /\ c <> 34 /\ c <> 92) s.
Proof.
  intros H. assert (X : exists x s, str "x" ++ [hex_digit (b / 16); hex_digit (b mod 16)] = x :: s /\ printable x /\ Forall (fun c => printable c /\ c <> 34 /\ c <> 92) s).
  { change (str "x") with [120]. eexists _, _. split; [reflexivity|]. split; [unfold printable; lia|]. rewrite <- !hex_hex by lia. pose proof (hex_print (b / 16) ltac:(lia)). pose proof (hex_print (b mod 16) ltac:(lia)). unfold printable. repeat constructor; lia. }
  destruct (Z.eq_dec b 7) as [-> |]; [eexists _, _; split; [reflexivity|]; split; [split; vm_compute; discriminate|constructor]|].
  destruct (Z.eq_dec b 8) as [-> |]; [eexists _, _; split; [reflexivity|]; split; [split; vm_compute; discriminate|constructor]|].
  destruct (Z.eq_dec b 9) as [-> |]; [eexists _, _; split; [reflexivity|]; split; [split; vm_compute; discriminate|constructor]|].
  destruct (Z.eq_dec b 10) as [-> |]; [eexists _, _; split; [reflexivity|]; split; [split; vm_compute; discriminate|constructor]|].
  destruct (Z.eq_dec b 11) as [-> |]; [eexists _, _; split; [reflexivity|]; split; [split; vm_compute; discriminate|constructor]|].
  destruct (Z.eq_dec b 12) as [-> |]; [eexists _, _; split; [reflexivity|]; split; [split; vm_compute; discriminate|constructor]|].
  destruct (Z.eq_dec b 13) as [-> |]; [eexists _, _; split; [reflexivity|]; split; [split; vm_compute; discriminate|constructor]|].
  replace (left_of b) with (str "x" ++ [hex_digit (b / 16); hex_digit (b mod 16)]); [exact X|].
  unfold left_of. destruct b as [|b|b]; [reflexivity| |lia].
  assert (b <> 7 /\ b <> 8 /\ b <> 9 /\ b <> 10 /\ b <> 11 /\ b <> 12 /\ b <> 13)%positive by lia.
  do 4 (destruct b as [b|b|]; try reflexivity; try lia).
Qed.
Lemma left_control c : 0 <= c < 32 -> quote_rune (c, [c]) = 92 :: left_of c.
Proof.
  intros H. unfold quote_rune. replace ((c =? 34) || (c =? 92)) with false by lia. replace (c <? 128) with true by lia. replace (btw 32 c 126) with false by (unfold btw; lia).
  rewrite !hex_hex by lia.
  destruct (c =? 7) eqn:E7; [apply Z.eqb_eq in E7; subst; reflexivity|]. destruct (c =? 8) eqn:E8; [apply Z.eqb_eq in E8; subst; reflexivity|].
  destruct (c =? 12) eqn:E12; [apply Z.eqb_eq in E12; subst; reflexivity|]. destruct (c =? 10) eqn:E10; [apply Z.eqb_eq in E10; subst; reflexivity|].
  destruct (c =? 13) eqn:E13; [apply Z.eqb_eq in E13; subst; reflexivity|]. destruct (c =? 9) eqn:E9; [apply Z.eqb_eq in E9; subst; reflexivity|].
  destruct (c =? 11) eqn:E11; [apply Z.eqb_eq in E11; subst; reflexivity|].
  unfold left_of. destruct c as [|b|b]; [reflexivity| |lia].
  assert (b <> 7 /\ b <> 8 /\ b <> 9 /\ b <> 10 /\ b <> 11 /\ b <> 12 /\ b <> 13)%positive by lia.
  do 4 (destruct b as [b|b|]; try reflexivity; try lia).
Qed.
Lemma left_stray b : 128 <= b < 256 -> quote_rune (rune_error, [b]) = 92 :: left_of b.
Proof.
  intros H. unfold quote_rune. change ((rune_error =? 34) || (rune_error =? 92)) with false. change (rune_error <? 128) with false. cbv iota. rewrite !hex_hex by lia.
  unfold left_of. destruct b as [|b|b]; [lia| |lia]. do 4 (destruct b as [b|b|]; try reflexivity; try lia).
Qed.
Lemma quoted_app q w q' w' : quoted q w -> quoted q' w' -> quoted (q ++ q') (w ++ w').
Proof. induction 1; intros H'; cbn [app]; [exact H'|constructor; auto|constructor; auto]. Qed.
Lemma quoted_plain s : Forall (fun c => printable c /\ c <> 34 /\ c <> 92) s -> quoted s s.
Proof. induction 1 as [|c s (_ & H1 & H2) H IH]; constructor; assumption. Qed.
Lemma left_quoted b : 0 <= b < 256 -> quoted (92 :: left_of b) (left_of b) /\ Forall printable (92 :: left_of b).
Proof.
  intros H. destruct (left_printable b H) as (x & s & -> & P & S). split; [constructor; now apply quoted_plain|].
  constructor; [unfold printable; lia|]. constructor; [exact P|]. eapply Forall_impl; [|exact S]. tauto.
Qed.
(** The text between the quotes. *)
Lemma quote_back v w : comes_back v w -> exists q, quote v = 34 :: q ++ [34] /\ quoted q w /\ Forall printable q.
Proof.
  intros H. unfold quote. exists (flat_map quote_rune (decode_runes v)). split; [reflexivity|].
  induction H as [|c v w Hc H [IH1 IH2]|c v w Hc H [IH1 IH2]|b v w Hb Hs H [IH1 IH2]]; [split; constructor| | |].
  - cbn [decode_runes]. unfold printable in Hc. replace (c <? 128) with true by lia. cbn [flat_map]. change (c :: w) with ([c] ++ w).
    assert (Q : quoted (quote_rune (c, [c])) [c] /\ Forall printable (quote_rune (c, [c]))).
    { unfold quote_rune. destruct ((c =? 34) || (c =? 92)) eqn:E.
      - split; [repeat constructor|repeat constructor; unfold printable; lia].
      - replace (c <? 128) with true by lia. replace (btw 32 c 126) with true by (unfold btw; lia). split; [constructor; [lia|lia|constructor]|repeat constructor; unfold printable; lia]. }
    split; [apply quoted_app; tauto|apply Forall_app; tauto].
  - cbn [decode_runes]. replace (c <? 128) with true by lia. cbn [flat_map]. rewrite (left_control c Hc). destruct (left_quoted c ltac:(lia)).
    split; [apply quoted_app; assumption|apply Forall_app; split; assumption].
  - destruct (decode_step b v ltac:(lia)) as [(r & u & Hr & E)|E]; [exfalso; exact (Hs r u Hr E)|]. rewrite E. cbn [flat_map]. rewrite (left_stray b Hb). destruct (left_quoted b ltac:(lia)).
    split; [apply quoted_app; assumption|apply Forall_app; split; assumption].
Qed.
Lemma back_printable v w : comes_back v w -> Forall printable w.
Proof. intros H. destruct (quote_back v w H) as (q & _ & Q & P). eapply quoted_all; eassumption. Qed.

(** A list as CommaString writes it. *)
Definition qtext (p : bytes * bytes) : bytes := fst p ++ 61 :: quote (snd p).
Definition qelem (p : bytes * bytes) : bytes := fst p ++ 61 :: 34 :: snd p ++ [34].
Lemma comma_texts p a : comma_string (p :: a) = qtext p ++ flat_map (fun q => 44 :: 32 :: qtext q) a.
Proof.
  unfold comma_string. cbv zeta. change (str ", ") with [44; 32].
  assert (S : forall l p, flat_map (fun p => fst p ++ [61] ++ quote (snd p) ++ [44; 32]) (p :: l) = (qtext p ++ flat_map (fun q => 44 :: 32 :: qtext q) l) ++ [44; 32]).
  { unfold qtext. induction l as [|q l IH]; intros p0; [cbn [flat_map]; rewrite !app_nil_r; rewrite <- !app_assoc; reflexivity|]. cbn [flat_map] in *. rewrite (IH q). repeat (rewrite <- ?app_assoc; cbn [app]); reflexivity. }
  rewrite S. rewrite app_length. cbn [length]. replace (_ + 2 - 2)%nat with (length (qtext p ++ flat_map (fun q => 44 :: 32 :: qtext q) a)) by lia.
  rewrite firstn_app, firstn_all, Nat.sub_diag. cbn [firstn]. apply app_nil_r.
Qed.
Definition back (p p' : bytes * bytes) : Prop := param_key (fst p) /\ fst p' = fst p /\ comes_back (snd p) (snd p').
Lemma element_chars k t v : Forall (fun c => ~ separator c /\ c <> 34) k -> element t v -> element (k ++ t) (k ++ v).
Proof. induction 1 as [|c k [H1 H2] H IH]; intros E; [exact E|]. cbn [app]. constructor; auto. Qed.
Lemma key_chars k : param_key k -> Forall (fun c => ~ separator c /\ c <> 34) k.
Proof.
  intros (_ & G & O). rewrite Forall_forall in *. intros c Hc. specialize (G c Hc). unfold graphic in G. pose proof (without_in _ _ _ O Hc) as N. cbn in N. unfold separator. lia.
Qed.
Lemma qtext_element p p' : back p p' -> element (qtext p) (qelem p') /\ Forall printable (qtext p).
Proof.
  intros (K & E & C). destruct (quote_back _ _ C) as (q & Eq & Q & P). unfold qtext, qelem. rewrite E, Eq. split.
  - apply element_chars; [now apply key_chars|]. constructor; [unfold separator; lia|lia|]. apply (El_quoted q (snd p') [] []); [exact Q|constructor].
  - destruct K as (_ & G & _). apply Forall_app. split; [eapply Forall_impl; [|exact G]; unfold graphic, printable; cbn; intros; lia|]. constructor; [unfold printable; lia|]. constructor; [unfold printable; lia|].
    apply Forall_app. split; [exact P|]. repeat constructor; unfold printable; lia.
Qed.
(** A text that starts with a graphic character and ends with the quote is trimmed already. *)
Lemma trimmed_blanks a c s : Forall blank a -> graphic c -> trimmed (a ++ c :: s ++ [34]) (c :: s ++ [34]).
Proof.
  intros A G. exists a, []. rewrite app_nil_r. split; [reflexivity|]. split; [exact A|]. split; [constructor|]. split.
  - intros d u E. injection E as <- _. unfold graphic in G. unfold blank. lia.
  - intros d u E. change (c :: s ++ [34]) with ((c :: s) ++ [34]) in E. apply app_inj_tail in E as [_ <-]. unfold blank. lia.
Qed.
Lemma qelem_shape p : param_key (fst p) -> exists c s, qelem p = c :: s ++ [34] /\ graphic c.
Proof.
  intros (N & G & _). unfold qelem. destruct (fst p) as [|c k]; [now elim N|]. apply Forall_inv in G. exists c, (k ++ 61 :: 34 :: snd p). split; [|exact G]. cbn [app]. rewrite <- app_assoc. reflexivity.
Qed.
Lemma comma_elements a : forall p a' p', back p p' -> Forall2 back a a' -> forall bl, Forall blank bl -> ~ In 10 bl ->
  elements (bl ++ qtext p ++ flat_map (fun q => 44 :: 32 :: qtext q) a) (map qelem (p' :: a')).
Proof.
  induction a as [|q a IH]; intros p a' p' H H2 bl B N.
  - inversion H2; subst. cbn [flat_map map]. rewrite app_nil_r. destruct (qtext_element p p' H) as [E _]. pose proof H as (K & EK & _).
    assert (K' : param_key (fst p')) by (rewrite EK; exact K). destruct (qelem_shape p' K') as (c & s & ES & G).
    eapply Es_last.
    + unfold qtext. intros Z. apply app_eq_nil in Z as [_ Z]. apply app_eq_nil in Z as [_ Z]. discriminate.
    + apply LE_whole, element_chars; [|exact E]. rewrite Forall_forall in *. intros x Hx. specialize (B x Hx). unfold blank in B. unfold separator. split; [|lia]. intros [-> |[-> | ->]]; try lia. contradiction.
    + rewrite ES. now apply trimmed_blanks.
  - inversion H2 as [|? q' ? a2 Hq Ha]; subst. cbn [flat_map]. destruct (qtext_element p p' H) as [E _]. pose proof H as (K & EK & _).
    assert (K' : param_key (fst p')) by (rewrite EK; exact K). destruct (qelem_shape p' K') as (c & s & ES & G).
    change (map qelem (p' :: q' :: a2)) with (qelem p' :: map qelem (q' :: a2)).
    replace (bl ++ qtext p ++ (44 :: 32 :: qtext q) ++ flat_map (fun q0 => 44 :: 32 :: qtext q0) a) with ((bl ++ qtext p) ++ 44 :: ([32] ++ qtext q ++ flat_map (fun q0 => 44 :: 32 :: qtext q0) a)) by (rewrite <- app_assoc; reflexivity).
    eapply Es_more.
    + apply element_chars; [|exact E]. rewrite Forall_forall in *. intros x Hx. specialize (B x Hx). unfold blank in B. unfold separator. split; [|lia]. intros [-> |[-> | ->]]; try lia. contradiction.
    + left. reflexivity.
    + rewrite ES. now apply trimmed_blanks.
    + apply IH; [exact Hq|exact Ha|repeat constructor|]. intros [Z|[]]; discriminate.
Qed.
Lemma qelem_param p : param_key (fst p) -> param (qelem p) (fst p) (snd p) /\ ~ broken (qelem p).
Proof.
  intros (_ & _ & O). assert (W : without (str "=") (fst p)) by (eapply Forall_impl; [|exact O]; intros c N [E|[]]; apply N; cbn; tauto). split.
  - exact (Pa_quoted (fst p) (snd p) W).
  - intros (k & Wk & B). unfold qelem in B. pose proof (cut_app 61 (fst p) (34 :: snd p ++ [34]) (wo_1 _ _ W)) as C1.
    destruct B as [B|B]; rewrite B in C1.
    + rewrite (cut_app 61 k [] (wo_1 _ _ Wk)) in C1. discriminate.
    + rewrite (cut_app 61 k [34] (wo_1 _ _ Wk)) in C1. injection C1 as _ C1. symmetry in C1. apply app_eq_nil in C1 as [_ C1]. discriminate.
Qed.
Lemma last_value_in ps : Forall (fun p => param_key (fst p)) ps -> NoDup (map fst ps) -> forall k v, last_value (map qelem ps) k v <-> mget k ps = Some v.
Proof.
  intros K. induction K as [|p ps Hp K IH]; intros ND k v.
  - split; [intros (b & e & a & E & _); destruct b; discriminate|discriminate].
  - cbn [map] in ND. apply NoDup_cons_iff in ND as [NI ND]. specialize (IH ND). destruct (qelem_param p Hp) as [P _].
    assert (KEY : forall v', mget k ps = Some v' -> fst p <> k). { intros v' G E. apply NI. rewrite E. apply mget_in in G. change k with (fst (k, v')). now apply in_map. }
    destruct p as [kp vp]. cbn [fst snd] in *. cbn [mget]. destruct (bytes_eqb k kp) eqn:EB.
    + apply bytes_eqb_eq in EB. subst kp. split.
      * intros (b & e & a & E & Pe & L). destruct b as [|x b]; cbn [map app] in E.
        -- injection E as <- _. destruct (param_fun _ _ _ _ _ P Pe) as [_ ->]. reflexivity.
        -- injection E as _ E. assert (LV : last_value (map qelem ps) k v) by (exists b, e, a; auto). apply IH in LV. elim (KEY _ LV). reflexivity.
      * intros [= <-]. exists [], (qelem (k, vp)), (map qelem ps). split; [reflexivity|]. split; [exact P|]. intros e' v' H' P'. apply in_map_iff in H' as (x & <- & Hx).
        rewrite Forall_forall in K. destruct (qelem_param x (K x Hx)) as [Px _]. destruct (param_fun _ _ _ _ _ Px P') as [Ek _]. apply NI. rewrite <- Ek. now apply in_map.
    + assert (NE : kp <> k) by (intros ->; rewrite bytes_eqb_refl in EB; discriminate). rewrite <- IH. split.
      * intros (b & e & a & E & Pe & L). destruct b as [|x b]; cbn [map app] in E.
        -- injection E as <- _. destruct (param_fun _ _ _ _ _ P Pe) as [Ek _]. contradiction.
        -- injection E as _ E. exists b, e, a. auto.
      * intros (b & e & a & E & Pe & L). exists (qelem (kp, vp) :: b), e, a. cbn [map app]. rewrite E. auto.
Qed.
