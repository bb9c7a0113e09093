(** Property C180: what DelMetaHeader and AddMetaHeader return for every input. *)
From Coq Require Import String.
From Verif Require Import Base.Go Base.GoFacts Base.IO Base.Float64 Proofs.IOFacts Model.AmfTypes Model.Amf3 Model.Amf0 Model.Metadata Spec.Amf Spec.AmfDoc Spec.Amf3Doc Spec.Amf3Ref Spec.AmfAll Spec.AmfVal
  Spec.Command Proofs.AmfFacts Proofs.AmfContr Proofs.AmfTerm Proofs.Amf3More Proofs.Metadata Proofs.AmfAll Proofs.Amf0RT Proofs.Amf0More Props.Amf0 Props.Amf3Ref Props.AmfAll Props.AmfVal.
Import ListNotations.
Local Open Scope list_scope.
Local Open Scope Z_scope.
Local Ltac Zify.zify_post_hook ::= Z.div_mod_to_equations.

(** Only the markers 2, 12, 15 and 17 give texts. *)
Lemma text_marker p d' s : decode0 (fresh (bytes_reader p)) = (d', Ok (VStr s)) -> exists m q, p = m :: q /\ (m = 2 \/ m = 12 \/ m = 15 \/ m = 17).
Proof.
  destruct p as [|m q]; [vm_compute; discriminate|]. intros E. exists m, q. split; [reflexivity|]. revert E. unfold decode0. rewrite (fuel_for_contr _ (m :: q) (eof true)) by reflexivity. cbn [dec0 length].
  erewrite dbind_ok by (eapply read_byte_contr; reflexivity). intros E.
  repeat match type of E with (if ?c then _ else _) _ = _ => destruct c eqn:?C end; try lia;
    try (unfold dfail, dret in E; discriminate);
    try (apply dbind_inv in E as (d2 & x & E3 & E4); unfold dret in E4; discriminate).
  - unfold decode_reference0 in E. apply dbind_inv in E as (d2 & x & E3 & E4). assert (HR : d_ref0 d2 = []).
    { unfold read_be in E3. destruct (read_full 2 _) as [r [v|e| |]]; injection E3 as <- _; reflexivity. }
    rewrite HR in E4. change (len (@nil value)) with 0 in E4. destruct (0 <? x); [discriminate|]. destruct (x =? 0); [discriminate|]. destruct (Z.to_nat x); discriminate E4.
  - unfold decode_ecma0 in E. apply dbind_inv in E as (? & ? & _ & E). apply dbind_inv in E as (? & ? & _ & E). discriminate.
  - unfold decode_strict0 in E. apply dbind_inv in E as (? & ? & _ & E). apply dbind_inv in E as (? & ? & _ & E).
    apply dbind_inv in E as (? & ? & _ & E). discriminate.
  - unfold decode_date0 in E. apply dbind_inv in E as (? & ? & _ & E). apply dbind_inv in E as (? & ? & _ & E). discriminate.
  - unfold decode_typed0 in E. apply dbind_inv in E as (? & ? & _ & E). apply dbind_inv in E as (? & ? & _ & E).
    apply dbind_inv in E as (? & ? & _ & E). discriminate.
Qed.

(** A document with its value is read. *)
Lemma doc_text p t c W' rest s : is_bytes p -> begins_with new_world 0 true p t c W' rest -> reads new_world [] t c (PStr s) W' [] ->
  exists d', decode0 (fresh (bytes_reader p)) = (d', Ok (VStr s)).
Proof.
  intros HB HW HR. destruct (C164_values new_world [] (fresh (bytes_reader p)) p (eof true) t c (PStr s) W' [] rest eq_refl (fresh_knows _) (Forall2_nil _) HW HR) as (d' & v & E & _ & U & _).
  inversion U; subst. exists d'. exact E.
Qed.
Lemma value_string b s : u29 (2 * len s + 1) b -> exists W', value3r Library new_world (6 :: b ++ s) 0 (PStr s) W'.
Proof.
  intros H. destruct s as [|x s]; eexists; apply vr3_string; [rewrite app_nil_r; apply vr_empty; exact H|apply vr_lit; [discriminate|exact H]].
Qed.
Lemma text_decoded p s : is_bytes p -> text_at p s -> exists d', decode0 (fresh (bytes_reader p)) = (d', Ok (VStr s)).
Proof.
  intros HB H. destruct H as [s rest HL HN|m s rest Hm HL HN|m b s rest Hm HU|m b s n Hm HN HU].
  - apply (doc_text _ (A_string s) 0 new_world rest); [exact HB| |apply (rd_simple new_world [] (A_string s)); exact I].
    split; [cbn [layout0 repeat]; unfold wire_utf8; rewrite app_nil_r; cbn [app]; rewrite <- app_assoc; reflexivity|]. split; [left; reflexivity|]. split; [exact HL|]. split; [exact I|]. split; [split; reflexivity|].
    destruct s as [|x s]; [left; exact HN|right; right; reflexivity].
  - assert (X : exists t, layout0 t = m :: wire_utf8_long s /\ (t = A_long s \/ t = A_xml s)) by (destruct Hm as [-> | ->]; eexists; split; [|left; reflexivity| |right; reflexivity]; reflexivity).
    destruct X as (t & X1 & X2). apply (doc_text _ t 0 new_world rest); [exact HB| |destruct X2 as [-> | ->]; [apply (rd_simple new_world [] (A_long s)); exact I|apply (rd_simple new_world [] (A_xml s)); exact I]].
    split; [rewrite X1; cbn [repeat]; unfold wire_utf8_long; rewrite app_nil_r; cbn [app]; rewrite <- app_assoc; reflexivity|]. split; [left; reflexivity|]. destruct X2 as [-> | ->]; (split; [exact HL|]; split; [exact I|]; split; [split; reflexivity|]; destruct s as [|x s]; [left; exact HN|right; right; reflexivity]).
  - assert (X : exists W', value3r Library new_world (m :: b ++ s) 0 (PStr s) W') by (destruct Hm as [-> |Hm]; [apply value_string; exact HU|eexists; apply vr3_xml; [exact Hm|exact HU|left; reflexivity]]).
    destruct X as (W' & X). apply (doc_text _ (A_avmplus (m :: b ++ s)) 0 W' rest); [exact HB| |apply rd_amf3; exact X].
    split; [cbn [layout0 repeat]; rewrite app_nil_r; cbn [app]; rewrite <- app_assoc; reflexivity|]. split; [left; reflexivity|]. split; [reflexivity|]. split; [exact I|]. split; [eexists; exact X|]. right. right. reflexivity.
  - assert (X : exists W', value3r Library new_world (m :: b ++ s ++ repeat 0 n) n (PStr (s ++ repeat 0 n)) W').
    { eexists. apply vr3_xml; [exact Hm|rewrite len_app; unfold len at 2; rewrite repeat_length; exact HU|]. right. rewrite app_length, repeat_length. destruct s; [congruence|cbn [length]; lia]. }
    destruct X as (W' & X). apply (doc_text _ (A_avmplus (m :: b ++ s ++ repeat 0 n)) n W' []); [exact HB| |apply rd_amf3; exact X].
    split; [cbn [layout0 app]; rewrite app_nil_r, <- app_assoc; reflexivity|]. split; [right; reflexivity|]. split; [reflexivity|]. split; [exact I|]. split; [eexists; exact X|]. right. right. reflexivity.
Qed.
Lemma value_text W b c v s W' : value3r Library W b c v W' -> W = new_world -> v = PStr s ->
  exists m b', (m = 6 /\ c = 0%nat \/ (m = 7 \/ m = 11) /\ (c = 0%nat \/ (c < length s)%nat)) /\ b = m :: b' ++ s /\ u29 (2 * len s + 1) b'.
Proof.
  intros H EW EV. destruct H as [| | | | | |W b s' st H|W m b s' c Hm HU HM|W k b bits p HU HB HP|? ? ? ? ? ? ? ? ? ? ? HP|? ? ? ? ? ? ? ? ? ? ? HP| |W m i b p HU HN HF]; try discriminate EV; try (rewrite HP in EV; discriminate EV).
  - injection EV as <-. rewrite EW in H. change (t_strings (w_tables new_world)) with (@nil bytes) in H. remember [] as st0 eqn:E0. exists 6. destruct H as [st1 i s b HU HN|st1 b HU|st1 s b HN HU].
    + subst st1. destruct i; discriminate HN.
    + exists b. rewrite app_nil_r. auto.
    + exists b. auto.
  - injection EV as <-. exists m, b. auto.
  - rewrite EW in HN. destruct i; discriminate HN.
Qed.
Lemma decoded_text p s d' : is_bytes p -> decode0 (fresh (bytes_reader p)) = (d', Ok (VStr s)) -> text_at p s.
Proof.
  intros HB E. destruct (text_marker p d' s E) as (m & q & EP & Hm).
  destruct (proj1 (C163_accepted_exactly new_world (fresh (bytes_reader p)) p (eof true) HB eq_refl (fresh_knows _)) _ _ E) as (t & c & W' & rest & HW & _).
  pose proof HW as (E1 & H2 & H3 & H4 & H5 & H6).
  assert (V : forall s', reads new_world [] t c (PStr s') W' [] -> s' = s).
  { intros s' HR. destruct (doc_text p t c W' rest s' HB HW HR) as (d2 & E2). congruence. }
  destruct t; cbn [layout0 app] in E1; rewrite EP in E1; cbn [app] in E1; injection E1 as -> E1; try lia; cbn [doc_ok embedded] in *.
  - destruct H5 as [-> ->]. rewrite (V s0) in * by (apply (rd_simple new_world [] (A_string s0)); exact I). rewrite EP. rewrite app_nil_r in E1. subst q. apply (Tx_string s rest); [exact H3|]. cbn [doc_ends_empty] in H6. destruct s; [|discriminate]. destruct H6 as [H6|[H6|H6]]; [exact H6|discriminate|discriminate].
  - destruct H5 as [-> ->]. rewrite (V s0) in * by (apply (rd_simple new_world [] (A_long s0)); exact I). rewrite EP. rewrite app_nil_r in E1. subst q. apply (Tx_long 12 s rest); [left; reflexivity|exact H3|]. cbn [doc_ends_empty] in H6. destruct s; [|discriminate]. destruct H6 as [H6|[H6|H6]]; [exact H6|discriminate|discriminate].
  - destruct H5 as [-> ->]. rewrite (V s0) in * by (apply (rd_simple new_world [] (A_xml s0)); exact I). rewrite EP. rewrite app_nil_r in E1. subst q. apply (Tx_long 15 s rest); [right; reflexivity|exact H3|]. cbn [doc_ends_empty] in H6. destruct s; [|discriminate]. destruct H6 as [H6|[H6|H6]]; [exact H6|discriminate|discriminate].
  - destruct H5 as (v & H5). 
    destruct (C164_values new_world [] (fresh (bytes_reader p)) p (eof true) _ c v W' [] rest eq_refl (fresh_knows _) (Forall2_nil _) HW (rd_amf3 _ _ _ _ _ _ H5)) as (d2 & w & E2 & _ & U & _).
    rewrite E in E2. injection E2 as <- <-. inversion U; subst v.
    destruct (value_text _ _ _ _ s _ H5 eq_refl eq_refl) as (m & b & HM & EB & HU). rewrite EP. subst s0. cbn [app] in E1. rewrite <- app_assoc in E1. destruct HM as [[-> ->]|[Hm3 HM]].
    + rewrite app_nil_r in E1. rewrite E1. apply Tx_amf3; [left; reflexivity|exact HU].
    + destruct c as [|c]; [cbn [repeat] in E1; rewrite app_nil_r in E1; rewrite E1; apply Tx_amf3; [right; exact Hm3|exact HU]|].
      destruct HM as [HM|HM]; [discriminate|]. destruct H2 as [H2|H2]; [discriminate|]. subst rest. rewrite app_nil_r in E1.
      assert (X : exists s1, s = s1 ++ repeat 0 (S c) /\ s1 <> []).
      { exists (firstn (length s - S c) s). assert (Lq : length q = (S (length b) + (length s - S c))%nat).
        { apply (f_equal (@length Z)) in E1. rewrite app_length, repeat_length in E1. cbn [length] in E1. rewrite app_length in E1. lia. }
        assert (Y : skipn (length s - S c) s = repeat 0 (S c)).
        { apply (f_equal (skipn (length q))) in E1. rewrite skipn_app, skipn_all, Nat.sub_diag in E1. cbn [app skipn] in E1. rewrite E1, Lq. cbn [Nat.add]. rewrite skipn_cons, skipn_app. rewrite (@skipn_all2 _ _ b) by lia. cbn [app]. f_equal. lia. }
        split; [rewrite <- Y; symmetry; apply firstn_skipn|]. intros Z0. apply (f_equal (@length Z)) in Z0. rewrite firstn_length in Z0. cbn [length] in Z0. lia. }
      destruct X as (sx & -> & HN). rewrite !app_assoc in E1. change (m :: b ++ sx) with ((m :: b) ++ sx).
      assert (EQ : q = m :: b ++ sx). { apply (app_inv_tail (repeat 0 (S c))). rewrite E1. cbn [app]. rewrite <- app_assoc. reflexivity. }
      rewrite EQ. apply Tx_cut; [exact Hm3|exact HN|]. rewrite len_app in HU. unfold len at 2 in HU. rewrite repeat_length in HU. exact HU.
Qed.
Lemma text_unique p s s' : is_bytes p -> text_at p s -> text_at p s' -> s = s'.
Proof. intros HB H H'. destruct (text_decoded p s HB H) as (d & E). destruct (text_decoded p s' HB H') as (d' & E'). congruence. Qed.
Lemma text_no_panic p s : is_bytes p -> text_at p s -> ~ self_refers new_world 0 p.
Proof.
  intros HB H X. destruct (text_decoded p s HB H) as (d & E). apply (C163_panics_exactly new_world (fresh (bytes_reader p)) p (eof true) HB eq_refl (fresh_knows _)) in X. rewrite E in X. discriminate X.
Qed.
Lemma u29_len n b : u29 n b -> 1 <= len b. Proof. intros H; destruct H; unfold len; cbn [length]; lia. Qed.
Lemma command_len p : text_at p (str "@setDataFrame") -> 16 <= len p.
Proof.
  intros H. remember (str "@setDataFrame") as cmd eqn:EC. assert (HL : len cmd = 13) by (subst cmd; reflexivity). destruct H as [s rest _ _|m s rest _ _ _|m b s rest _ HU|m b s n _ _ HU].
  - rewrite len_cons, !len_app. change (len (be16 (len s))) with 2. pose proof (len_nonneg rest). lia.
  - rewrite len_cons, !len_app. change (len (be32 (len s))) with 4. pose proof (len_nonneg rest). lia.
  - apply u29_len in HU. rewrite !len_cons, !len_app. pose proof (len_nonneg rest). lia.
  - apply u29_len in HU. assert (n = 0)%nat as ->.
    { destruct n as [|n]; [reflexivity|]. exfalso. apply (f_equal (fun l => nth 0 (rev l) 1)) in EC. rewrite rev_app_distr in EC. replace (repeat 0 (S n)) with (repeat 0 n ++ [0]) in EC by (symmetry; apply repeat_cons). rewrite rev_app_distr in EC. vm_compute in EC. discriminate EC. }
    cbn [repeat] in HL. rewrite app_nil_r in HL. rewrite !len_cons, !len_app. lia.
Qed.

(** ** C180 *)
(** DelMetaHeader with a new AMF0 decoder, on every input: the data without the command, an error exactly if the data does not begin
    with a text, and a panic exactly if AMF0 decoding panics (C163). *)
Theorem C180_del : forall p, is_bytes p ->
  match snd (del_meta_header decode0 (fresh (bytes_reader [])) p) with
  | Ok q => without_command p q
  | Panic => self_refers new_world 0 p
  | Err _ => (forall s, ~ text_at p s) /\ ~ self_refers new_world 0 p
  | OutOfFuel => False
  end.
Proof.
  intros p HB. unfold del_meta_header. change (set_r (bytes_reader p) (fresh (bytes_reader []))) with (fresh (bytes_reader p)).
  pose proof (C163_panics_exactly new_world (fresh (bytes_reader p)) p (eof true) HB eq_refl (fresh_knows _)) as P. change (len (d_ref0 (fresh (bytes_reader p)))) with 0 in P.
  pose proof (proj1 (C54_decode_terminates (fresh (bytes_reader p)))) as T.
  assert (TX : forall s, text_at p s -> exists d', decode0 (fresh (bytes_reader p)) = (d', Ok (VStr s))) by (intros s; apply text_decoded; exact HB).
  destruct (decode0 (fresh (bytes_reader p))) as [d' r] eqn:E. cbn [snd] in *. destruct r as [v|e| |]; cbn [snd]; [|split; [intros s X; destruct (TX s X) as (? & Y); discriminate Y|intros X; apply P in X; discriminate X]|apply P; reflexivity|congruence].
  assert (NT : forall x, (forall s, v <> VStr s) -> snd (d', @Err bytes x) = Err x -> (forall s, ~ text_at p s) /\ ~ self_refers new_world 0 p).
  { intros x NV _. split; [intros s X; destruct (TX s X) as (? & Y); injection Y as _ Y; exact (NV s Y)|intros X; apply P in X; discriminate X]. }
  destruct v as [| | |s| | | | | | |]; cbn [snd]; try (apply (NT EOther); [discriminate|reflexivity]).
  destruct (bytes_eqb s set_data_frame) eqn:EC.
  - apply bytes_eqb_eq in EC. subst s. pose proof (decoded_text p _ d' HB E) as X. pose proof (command_len p X) as HL. change (len set_frame_frame) with 16. replace (len p <? 16) with false by lia.
    apply Wc_command; [exact X|]. exists (take p 16). split; [rewrite len_take; lia|symmetry; apply take_drop].
  - apply (Wc_other p s); [exact (decoded_text p s d' HB E)|]. intros ->. rewrite bytes_eqb_refl in EC. discriminate EC.
Qed.
Print Assumptions C180_del.
(** The same for AddMetaHeader. *)
Theorem C180_add : forall p, is_bytes p ->
  match snd (add_meta_header decode0 (fresh (bytes_reader [])) p) with
  | Ok q => with_command p q
  | Panic => self_refers new_world 0 p
  | Err _ => (forall s, ~ text_at p s) /\ ~ self_refers new_world 0 p
  | OutOfFuel => False
  end.
Proof.
  intros p HB. pose proof (C180_del p HB) as D. unfold add_meta_header, del_meta_header in *. change (set_r (bytes_reader p) (fresh (bytes_reader []))) with (fresh (bytes_reader p)) in *.
  destruct (decode0 (fresh (bytes_reader p))) as [d' [v|e| |]] eqn:E; try exact D. destruct v; try exact D. cbn [snd] in *. pose proof (decoded_text p _ d' HB E) as X. destruct (bytes_eqb s set_data_frame) eqn:EC.
  - apply bytes_eqb_eq in EC. subst s. apply Ac_command. exact X.
  - apply (Ac_other p s); [exact X|]. intros ->. rewrite bytes_eqb_refl in EC. discriminate EC.
Qed.
Print Assumptions C180_add.
(** These descriptions leave no choice. *)
Theorem C180_unique : forall p, is_bytes p ->
  (forall s s', text_at p s -> text_at p s' -> s = s') /\ (forall s, text_at p s -> ~ self_refers new_world 0 p) /\
  (forall q q', without_command p q -> without_command p q' -> q = q') /\ (forall q q', with_command p q -> with_command p q' -> q = q').
Proof.
  intros p HB. pose proof (fun s s' => text_unique p s s' HB) as U. split; [exact U|]. split; [intros s; apply text_no_panic; exact HB|]. split.
  - intros q q' [q0 H1 (h & Lh & Eh)|s H1 N1] [q1 H2 (h' & Lh' & Eh')|s' H2 N2]; [|elim N2; apply (U _ _ H2 H1)|elim N1; apply (U _ _ H1 H2)|reflexivity].
    assert (X : firstn (Z.to_nat 16) p = firstn (Z.to_nat 16) p /\ skipn (Z.to_nat 16) (h ++ q0) = skipn (Z.to_nat 16) (h' ++ q1)) by (split; congruence). destruct X as [_ X].
    rewrite !skipn_app in X. unfold len in Lh, Lh'. replace (Z.to_nat 16) with (length h) in X at 1 2 by lia. replace (Z.to_nat 16) with (length h') in X by lia. rewrite !skipn_all, !Nat.sub_diag in X. exact X.
  - intros q q' [H1|s H1 N1] [H2|s' H2 N2]; [reflexivity|elim N2; apply (U _ _ H2 H1)|elim N1; apply (U _ _ H1 H2)|reflexivity].
Qed.
Print Assumptions C180_unique.
(** The command as an AMF3 string and as a long string; another text; and data that begins with a reference to the first place. *)
Example C180_example :
  text_at (17 :: 6 :: [27] ++ str "@setDataFrame" ++ [5]) (str "@setDataFrame") /\ without_command (17 :: 6 :: [27] ++ str "@setDataFrame" ++ [5]) [5] /\
  without_command (12 :: be32 13 ++ str "@setDataFrame" ++ [5]) (str "me" ++ [5]) /\ without_command (17 :: 7 :: [7] ++ [65; 66]) (17 :: 7 :: [7] ++ [65; 66]) /\ self_refers new_world 0 [7; 0; 0; 1].
Proof.
  assert (A : text_at (17 :: 6 :: [27] ++ str "@setDataFrame" ++ [5]) (str "@setDataFrame")) by (apply Tx_amf3; [left; reflexivity|apply u29_1; lia]).
  split; [exact A|]. split; [apply Wc_command; [exact A|exists (17 :: 6 :: 27 :: str "@setDataFrame"); split; reflexivity]|].
  split; [apply Wc_command; [apply (Tx_long 12 (str "@setDataFrame") [5]); [left; reflexivity|vm_compute; reflexivity|discriminate]|exists (12 :: be32 13 ++ firstn 11 (str "@setDataFrame")); split; reflexivity]|].
  split; [apply (Wc_other _ ([65; 66] ++ repeat 0 1)); [apply Tx_cut; [left; reflexivity|discriminate|apply u29_1; lia]|discriminate]|].
  exists O_here, 0, [1], new_world. split; [reflexivity|]. split; [exact I|]. split; [exact I|]. split; [reflexivity|]. split; [lia|reflexivity].
Qed.
