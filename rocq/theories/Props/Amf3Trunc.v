(** Property C172: what AMF3 decoding says about input that ends too early (Spec/Amf3Trunc.v). *)
From Coq Require Import String.
From Verif Require Import Base.Go Base.GoFacts Base.IO Base.Float64 Proofs.IOFacts Model.AmfTypes Model.Amf3 Model.Amf0 Spec.Amf Spec.AmfDoc Spec.Amf3Doc Spec.Amf3Trunc
  Proofs.AmfFacts Proofs.AmfContr Proofs.Amf0RT Proofs.Amf0More Proofs.Amf0Doc Proofs.Amf3Enc Proofs.Amf3RT Proofs.Amf3Doc Proofs.Amf3More Proofs.AmfTame Proofs.AmfHeap Proofs.Amf3Trunc Proofs.Amf3Pieces Proofs.AmfPad Props.Amf3Doc.
Import ListNotations.
Local Open Scope list_scope.
Local Open Scope Z_scope.

(** ** The pieces are those of the documents of C126 *)
Theorem C172_pieces : forall T b T', (exists p, value3 false T b p T') <-> (exists us, value_pieces T us T' /\ piece_bytes us = b).
Proof.
  intros T b T'. split.
  - intros (p & H). apply (proj1 (value_split false) T b p T' H eq_refl).
  - intros (us & H & <-). apply (proj1 value_join T us T' H).
Qed.
Print Assumptions C172_pieces.

(** ** C172: Decode of a proper beginning of a document. Whatever it stops at, the outcome is as follows; if it is inside content at the very
    end the call succeeds, with zeros for the bytes that are not there. *)
Theorem C172_decode_cut_short : forall T us T' d p q e, value_pieces T us T' -> tables_are T d -> piece_bytes us = p ++ q -> q <> [] -> d_r d = cont p e -> e_err e = EEof ->
  (stops_quietly us p -> snd (decode3 d) = Err EEof) /\
  (stops_in Whole us p -> snd (decode3 d) = Err EUnexpectedEof) /\
  (stops_in Text us p \/ stops_in Stamp us p \/ stops_at_date us p -> snd (decode3 d) = Err EOther) /\
  (stops_in_last us p -> exists d' v pv, decode3 d = (d', Ok v) /\ value3 false T (p ++ repeat 0 (length q)) pv T' /\ unfolds (d_heap d') v pv /\ d_r d' = cont [] e /\ tables_are T' d' /\ exists new, d_heap d' = d_heap d ++ new) /\
  (stops_quietly us p \/ stops_in Whole us p \/ (stops_in Text us p \/ stops_in Stamp us p \/ stops_at_date us p) \/ stops_in_last us p).
Proof.
  intros T us T' d p q e HV HT E NQ Hr HE. rewrite cont_contr in Hr. pose proof (proj1 calm_value _ _ _ HV) as HC.
  assert (D : at_ d p e = d) by (unfold at_; rewrite <- Hr; destruct d; reflexivity).
  destruct (proj1 dec3_tells _ _ _ HV (S (length p)) (S (length p)) d e (le_n _) HT) as [_ X]. specialize (X p q E NQ (le_n _)). rewrite D in X.
  assert (ED : decode3 d = dec3 (S (length p)) d) by (unfold decode3; rewrite (fuel_for_contr _ _ _ Hr); reflexivity). rewrite ED.
  split; [|split; [|split; [|split]]].
  - intros H. rewrite (quiet_error _ _ _ HC H), HE in X. exact X.
  - intros (a & s & b & x & y & -> & -> & -> & NX & NY). rewrite cut_inside, HE in X by assumption. exact X.
  - intros [(a & s & b & x & y & -> & -> & -> & NX & NY)|[(a & s & b & x & y & -> & -> & -> & NX & NY)|(a & s & b & -> & ->)]]; [rewrite cut_inside in X by assumption; exact X..|].
    destruct (calm_end _ _ _ HC) as (c & NS & _). rewrite cut_at in X by exact NS. exact X.
  - intros (a & s & x & y & -> & -> & -> & NX & NY). rewrite cut_inside in X by assumption. change (len (piece_bytes [])) with 0 in X. cbn [Z.eqb] in X. destruct X as (d1 & v & _ & X1 & X2).
    assert (EQ : q = y) by (rewrite piece_bytes_app, piece_bytes_cons, <- !app_assoc in E; do 2 apply app_inv_head in E; rewrite app_nil_r in E; auto). subst q.
    assert (HV2 : value_pieces T (a ++ [(Content, x ++ repeat 0 (length y))]) T').
    { apply (proj1 alike_value _ _ _ HV). apply Forall2_app; [clear; induction a; constructor; [left; reflexivity|assumption]|]. constructor; [|constructor]. right. repeat split. cbn [snd]. rewrite !len_app. unfold len. rewrite repeat_length. reflexivity. }
    destruct (proj1 value_join _ _ _ HV2) as (pv & PV). assert (EB : piece_bytes (a ++ [(Content, x ++ repeat 0 (length y))]) = (piece_bytes a ++ x) ++ repeat 0 (length y)) by (rewrite piece_bytes_app, piece_bytes_cons; change (piece_bytes []) with (@nil Z); rewrite app_nil_r, app_assoc; reflexivity).
    rewrite EB in PV. set (z := (piece_bytes a ++ x) ++ repeat 0 (length y)) in *. assert (HT2 : tables_are T (at_ d z e)) by exact HT.
    destruct (C126_documents_partial T z pv T' (at_ d z e) [] e PV HT2) as (d2 & v2 & Y1 & Y2 & Y3 & Y4 & hs & Y5); [rewrite app_nil_r, cont_contr; reflexivity|].
    assert (FZ : (S (length (piece_bytes a ++ x)) <= fuel_for (at_ d z e))%nat) by (rewrite (fuel_for_contr (at_ d z e) z e eq_refl); unfold z; rewrite (app_length (piece_bytes a ++ x)); lia).
    pose proof (dec3_more _ _ _ _ _ FZ X2) as X3. unfold decode3 in Y1. rewrite X3 in Y1. injection Y1 as <- <-.
    exists (at_ d1 [] e), v, pv. split; [exact X1|]. split; [exact PV|]. split; [exact Y3|]. split; [exact Y2|]. split; [exact Y4|]. exists hs. exact Y5.
  - eapply stops_somewhere3; eassumption.
Qed.
Print Assumptions C172_decode_cut_short.

(** ** DecodeBatch: the complete values before it, and what the unfinished one leads to. *)
Lemma unfolds_all h h' l ps : extends h h' -> Forall2 (unfolds h) l ps -> Forall2 (unfolds h') l ps.
Proof. intros X F. induction F; constructor; [eapply unfolds_extends; eassumption|assumption]. Qed.
Lemma batch3_docs vs : forall T b T1, values3 false T b vs T1 -> forall fuel d rest e, (length vs <= fuel)%nat -> tables_are T d -> d_r d = cont (b ++ rest) e ->
  exists d1 ws, tables_are T1 d1 /\ d_r d1 = cont rest e /\ extends (d_heap d) (d_heap d1) /\ Forall2 (unfolds (d_heap d1)) ws vs /\
    batch3 fuel d = let '(d2, (us, r)) := batch3 (fuel - length vs) d1 in (d2, (ws ++ us, r)).
Proof.
  induction vs as [|pv vs IH]; intros T b T1 H fuel d rest e Hf HT Hr; [inversion H; subst|inversion H as [|? ? ? ? ? ? ? H3 H6]; subst].
  - exists d, []. split; [exact HT|]. split; [exact Hr|]. split; [apply extends_refl|]. split; [constructor|]. cbn [length app]. rewrite Nat.sub_0_r. destruct (batch3 fuel d) as [d2 [us r]]. reflexivity.
  - cbn [length] in Hf. destruct fuel as [|fuel]; [lia|]. rewrite <- app_assoc in Hr. destruct (C126_documents_partial _ _ _ _ d _ e H3 HT Hr) as (d1 & v & E1 & R1 & U1 & HT1 & hs & EX).
    destruct (IH _ _ _ H6 fuel d1 rest e ltac:(lia) HT1 R1) as (d2 & ws & A1 & A2 & A3 & A4 & A5). exists d2, (v :: ws). split; [exact A1|]. split; [exact A2|]. split; [eapply extends_trans; [exists hs; exact EX|exact A3]|].
    split; [constructor; [eapply unfolds_extends; eassumption|exact A4]|]. cbn [batch3]. rewrite E1, A5. cbn [length Nat.sub]. destruct (batch3 (fuel - length vs) d2) as [d3 [us r]]. reflexivity.
Qed.
Lemma decode3_empty d e : d_r d = cont [] e -> decode3 d = (set_r (cont [] e) d, Err (e_err e)).
Proof. intros Hr. rewrite cont_contr in *. unfold decode3. rewrite (fuel_for_contr _ _ _ Hr). cbn [length dec3]. unfold dbind, read_byte, dbind, read_bytes. rewrite Hr. reflexivity. Qed.
Theorem C172_batch_cut_short : forall T b vs T1 us T2 d p q e, values3 false T b vs T1 -> value_pieces T1 us T2 -> tables_are T d ->
  piece_bytes us = p ++ q -> q <> [] -> d_r d = cont (b ++ p) e -> e_err e = EEof ->
  exists d' ws r, decode_batch3 d = (d', (ws, r)) /\
    (stops_quietly us p -> r = Ok tt /\ Forall2 (unfolds (d_heap d')) ws vs) /\
    (stops_in Whole us p -> r = Err EUnexpectedEof /\ Forall2 (unfolds (d_heap d')) ws vs) /\
    (stops_in Text us p \/ stops_in Stamp us p \/ stops_at_date us p -> r = Err EOther /\ Forall2 (unfolds (d_heap d')) ws vs) /\
    (stops_in_last us p -> r = Ok tt /\ exists pv, value3 false T1 (p ++ repeat 0 (length q)) pv T2 /\ Forall2 (unfolds (d_heap d')) ws (vs ++ [pv])).
Proof.
  intros T b vs T1 us T2 d p q e HVS HV HT E NQ Hr HE. pose proof (values3_length _ _ _ _ _ HVS) as LV.
  assert (EF : fuel_for d = S (length (b ++ p))) by (rewrite cont_contr in Hr; apply (fuel_for_contr _ _ _ Hr)). rewrite app_length in EF.
  destruct (batch3_docs vs T b T1 HVS (fuel_for d) d p e ltac:(lia) HT Hr) as (d1 & ws & HT1 & R1 & X1 & U1 & EB). unfold decode_batch3. rewrite EB.
  destruct (C172_decode_cut_short T1 us T2 d1 p q e HV HT1 E NQ R1 HE) as (C1 & C2 & C3 & C4 & CC). pose proof (decode3_heap d1) as X2.
  assert (FF : (fuel_for d - length vs)%nat = S (fuel_for d - length vs - 1)) by lia. rewrite FF. cbn [batch3].
  assert (BAD : forall x, snd (decode3 d1) = Err x -> exists d', decode3 d1 = (d', Err x) /\ extends (d_heap d1) (d_heap d')) by (intros x H; destruct (decode3 d1) as [d' r]; cbn [fst snd] in *; subst r; exists d'; auto).
  assert (X : forall A B : Prop, A -> A \/ B) by auto.
  destruct CC as [S|[S|[S|S]]].
  - destruct (BAD _ (C1 S)) as (d' & E' & X'). rewrite E'. rewrite E' in C2, C3, C4. cbn [snd] in C2, C3. exists d', (ws ++ []), (Ok tt). rewrite app_nil_r. split; [reflexivity|]. split; [intros _; split; [reflexivity|eapply unfolds_all; eassumption]|].
    split; [intros Y; discriminate (C2 Y)|]. split; [intros Y; discriminate (C3 Y)|]. intros Y. destruct (C4 Y) as (d'' & v & pv & Y1 & _). discriminate Y1.
  - destruct (BAD _ (C2 S)) as (d' & E' & X'). rewrite E'. rewrite E' in C1, C3, C4. cbn [snd] in C1, C3. exists d', (ws ++ []), (Err EUnexpectedEof). rewrite app_nil_r. split; [reflexivity|]. split; [intros Y; discriminate (C1 Y)|].
    split; [intros _; split; [reflexivity|eapply unfolds_all; eassumption]|]. split; [intros Y; discriminate (C3 Y)|]. intros Y. destruct (C4 Y) as (d'' & v & pv & Y1 & _). discriminate Y1.
  - destruct (BAD _ (C3 S)) as (d' & E' & X'). rewrite E'. rewrite E' in C1, C2, C4. cbn [snd] in C1, C2. exists d', (ws ++ []), (Err EOther). rewrite app_nil_r. split; [reflexivity|]. split; [intros Y; discriminate (C1 Y)|].
    split; [intros Y; discriminate (C2 Y)|]. split; [intros _; split; [reflexivity|eapply unfolds_all; eassumption]|]. intros Y. destruct (C4 Y) as (d'' & v & pv & Y1 & _). discriminate Y1.
  - destruct (C4 S) as (d2 & v & pv & E2 & PV & U2 & R2 & HT2 & hs & EH). rewrite E2. rewrite E2 in C1, C2, C3. cbn [snd] in C1, C2, C3.
    assert (LP : (1 <= length p)%nat) by (destruct S as (a & s & x & y & _ & -> & _ & NX & _); rewrite app_length; destruct x; [congruence|cbn [length]; lia]).
    assert (F2 : (fuel_for d - length vs - 1)%nat = Datatypes.S (fuel_for d - length vs - 2)) by lia. rewrite F2. cbn [batch3]. rewrite (decode3_empty d2 e R2), HE.
    exists (set_r (cont [] e) d2), (ws ++ [v]), (Ok tt). split; [reflexivity|]. split; [intros Y; discriminate (C1 Y)|]. split; [intros Y; discriminate (C2 Y)|]. split; [intros Y; discriminate (C3 Y)|]. intros _. split; [reflexivity|]. exists pv. split; [exact PV|].
    apply Forall2_app; [eapply unfolds_all; [exists hs; exact EH|exact U1]|]. constructor; [exact U2|constructor].
Qed.
Print Assumptions C172_batch_cut_short.

(** A string and an array of an integer and a byte array: cut in the byte array the call returns zeros, cut before it (after the integer)
    the batch says nothing, cut in the string it is an error. *)
Definition ex_cut3 : pieces := singles [9] ++ singles [5] ++ singles [1] ++ (singles [4] ++ singles [7]) ++ (singles [12] ++ singles [9] ++ piece Content [1; 2; 3; 4]).
Lemma ex_cut3_pieces : value_pieces (mkTables [[97; 98]] []) ex_cut3 (mkTables [[97; 98]] []).
Proof.
  unfold ex_cut3. eapply (vp_array _ _ (singles [1]) (mkTables [[97; 98]] []) ((singles [4] ++ singles [7]) ++ (singles [12] ++ singles [9] ++ piece Content [1; 2; 3; 4])) 2).
  - apply u29_1. lia.
  - change (mkTables [[97; 98]] []) with (with_strings [[97; 98]] (mkTables [[97; 98]] [])) at 2. apply asp_nil. apply vrp_empty. apply u29_1. lia.
  - eapply vsp_cons; [apply (vp_integer _ 7); [reflexivity|apply u29_1; lia]|]. rewrite <- (app_nil_r (singles [12] ++ _)). eapply vsp_cons; [apply vp_bytes; apply u29_1; lia|constructor].
Qed.
Example C172_example : (exists T1, values3 false (mkTables [] []) [6; 5; 97; 98] [PStr [97; 98]] T1 /\ value_pieces T1 ex_cut3 T1) /\ piece_bytes ex_cut3 = [9; 5; 1; 4; 7; 12; 9; 1; 2] ++ [3; 4] /\
  stops_in_last ex_cut3 [9; 5; 1; 4; 7; 12; 9; 1; 2] /\ stops_quietly ex_cut3 [9; 5; 1; 4; 7] /\
  (let stop s := snd (decode_batch3 (fresh (bytes_reader s))) in
   stop ([6; 5; 97; 98] ++ [9; 5; 1; 4; 7; 12; 9; 1; 2]) = ([VStr [97; 98]; VEcma [VU32 7; VBytes [1; 2; 0; 0]] (Some O)], Ok tt) /\
   stop ([6; 5; 97; 98] ++ [9; 5; 1; 4; 7]) = ([VStr [97; 98]], Ok tt) /\ stop [6; 5; 97] = ([], Err EOther) /\ stop [5; 1; 2] = ([], Err EUnexpectedEof) /\ stop [8; 1] = ([], Err EOther)).
Proof.
  split; [exists (mkTables [[97; 98]] []); split; [|exact ex_cut3_pieces]|].
  - change [6; 5; 97; 98] with ((6 :: [5] ++ [97; 98]) ++ []). econstructor; [|constructor]. change (mkTables [[97; 98]] []) with (with_strings ([] ++ [[97; 98]]) (mkTables [] [])). apply v3_string. apply vr_lit; [discriminate|]. apply u29_1. unfold len; cbn [length]; lia.
  - split; [reflexivity|]. split; [exists (firstn 7 ex_cut3), [1; 2; 3; 4], [1; 2], [3; 4]; repeat split; discriminate|]. split; [left; exists (firstn 5 ex_cut3), Whole, [12], [(Whole, [9]); (Content, [1; 2; 3; 4])]; repeat split; discriminate|]. vm_compute. repeat split.
Qed.
