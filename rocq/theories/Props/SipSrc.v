(** C140, C141: SIP Parse over sources that fail, and over sources that return io.EOF with their last bytes. *)
From Coq Require Import String Permutation.
From Verif Require Import Base.Go Base.GoFacts Base.IO Base.Text Model.Sip Model.SipSrc Spec.Sip Proofs.Text Proofs.Sip Proofs.SipMsg Proofs.SipParse Proofs.SipMore Proofs.SipSrc Props.SipMsg Props.SipStream.
Import ListNotations. Local Open Scope list_scope. Local Open Scope Z_scope.

(** ** C140 *)
(** When Parse does not return an error, the failure of the source made no difference: a source that delivers the same
    blocks, then any others, and then ends in any way gives the same object and the same result. *)
Theorem C140_failure_not_taken_for_end : forall blocks e with_last more e' size s x r, 0 < size -> e <> EEof ->
  snd (gparse (greader blocks e with_last size) s) = (x, r) -> (forall e, r <> Err e) ->
  snd (gparse (greader (blocks ++ more) e' false size) s) = (x, r).
Proof. intros blocks e w more e' size s x r Hs He. apply parse_on; assumption. Qed.
Print Assumptions C140_failure_not_taken_for_end.
(** On sources that end with io.EOF and whose Reads return something, Parse is that of Model/Sip.v. *)
Theorem C140_as_before : forall blocks size s, 0 < size -> Forall (fun c => c <> []) blocks ->
  snd (gparse (greader blocks EEof false size) s) = snd (sip_parse (reader blocks size) s).
Proof. intros blocks size s Hs F. apply parse_eof; assumption. Qed.
Print Assumptions C140_as_before.
Lemma layer_prefix cs size s b x : 0 < size -> sip_parse (reader cs size) s = (b, (x, Ok tt)) -> exists t, concat cs = (s_contents x ++ s_payload x) ++ t.
Proof.
  intros Hz E. pose proof (sip_parse_outcome (reader cs size) s (reader_inv _ _ Hz)) as P. unfold parse_outcome in P.
  destruct (lines_pure (S (S (length (bf_rest (reader cs size))))) (bf_size (reader cs size)) (bf_rest (reader cs size)) 0 0 [] s) as [s' [[[o bu] t]|e| |]] eqn:L;
    try (destruct P as [b' [e' P]]; rewrite P in E; discriminate); try (destruct P as [b' P]; rewrite P in E; discriminate).
  apply lines_pure_consumed in L; [|reflexivity]. destruct L as (used & eol & -> & H & _ & _). destruct (fill_header s') as [s1 [u|e| |]]; try (destruct P as [b' P]; rewrite P in E; discriminate).
  destruct (get_content_length (s_headers s1)) as [n|e| |]; try (destruct P as [b' [e' P]]; rewrite P in E; discriminate).
  destruct P as (b' & d & P & -> & _ & _). rewrite P in E. injection E as <- <-. cbn [with_layer s_contents s_payload]. change (bf_rest (reader cs size)) with (concat cs) in H. rewrite H.
  exists (bf_rest b'). unfold take, drop. rewrite firstn_skipn. cbn [app]. rewrite <- !app_assoc. reflexivity.
Qed.
(** So a message whose source fails before its end is refused: however it was cut, in whatever blocks the part before the cut
    came, whatever the error was, and whether it came alone or with the last block. (Parse stops short of the last two
    bytes of a payload, C91, so those are not missed.) *)
Theorem C140_cut_message_refused : forall order s s1 text blocks got missing e with_last size,
  plain_message s -> iteration order -> fits size s -> 128 <= size -> sip_bytes order s = Ok (s1, text) ->
  text = got ++ missing -> missing <> [] -> (s_payload s <> [] -> 2 < len missing) ->
  concat blocks = got -> Forall (fun c => c <> []) blocks -> e <> EEof ->
  exists x e', snd (gparse (greader blocks e with_last size) new_sip) = (x, Err e').
Proof.
  intros order s s1 text cs p q e w size Hm Ho Hf Hz Hb Ht Hq Hq2 Hc Hcs He. destruct (snd (gparse (greader cs e w size) new_sip)) as [x r] eqn:E.
  destruct r as [u|e'| |] eqn:R; [|eauto|..]; exfalso; rewrite <- R in E; assert (NE : forall y, r <> Err y) by (rewrite R; discriminate);
  pose proof (parse_on [q] EEof cs e w size new_sip x r ltac:(lia) He E NE) as E1;
  (rewrite parse_eof in E1; [|lia|apply Forall_app; split; [exact Hcs|constructor; [exact Hq|constructor]]]);
  (destruct (sip_parse_message order s text s1 (cs ++ [q]) size [] Hm Ho Hf Hz Hb) as (b & y & S1 & _ & S2 & S3); [rewrite concat_app, Hc; cbn [concat]; rewrite !app_nil_r; symmetry; exact Ht|reflexivity|]);
  rewrite S1 in E1; cbn [snd] in E1; injection E1 as <- E1; rewrite <- E1 in R; try discriminate R.
  pose proof (parse_on [] EEof cs e w size new_sip y r ltac:(lia) He E NE) as E2. rewrite app_nil_r in E2. rewrite parse_eof in E2; [|lia|exact Hcs].
  destruct (sip_parse (mkB [] false cs size) new_sip) as [b2 z] eqn:S4. cbn [snd] in E2. subst z. rewrite <- E1 in S4. destruct (layer_prefix cs size new_sip b2 y ltac:(lia) S4) as [t T]. rewrite Hc in T.
  apply (f_equal (@len Z)) in T, Ht. rewrite !len_app in T. rewrite len_app in Ht. pose proof (len_nonneg t).
  assert (0 < len q) by (destruct q; [congruence|rewrite len_cons; pose proof (len_nonneg q); lia]).
  destruct (s_payload s) as [|c pl] eqn:Ep.
  - destruct (S2 eq_refl) as (P1 & P2 & _). rewrite P1, P2 in T. change (len (@nil Z)) with 0 in T. lia.
  - destruct (S3 ltac:(discriminate)) as (d & P1 & P2 & P3 & _ & P5). specialize (Hq2 ltac:(discriminate)). apply (f_equal (@len Z)) in P5. rewrite len_app in P5. rewrite P1 in T. rewrite !len_cons in *. lia.
Qed.
Print Assumptions C140_cut_message_refused.
(** The message of the C116 example, cut after a third of it, in its first line, or in its payload; and complete, before the
    source fails. *)
Example C140_ex : exists s1 text, sip_bytes (@rev _) (ex_message (str "hello, world")) = Ok (s1, text) /\
  snd (snd (gparse (greader [firstn 100 text] EOther false 4096) new_sip)) = Err EOther /\
  snd (snd (gparse (greader (map (fun c => [c]) (firstn 30 text)) EUnexpectedEof true 4096) new_sip)) = Err EUnexpectedEof /\
  snd (snd (gparse (greader [firstn 193 text] EOther true 4096) new_sip)) = Err EOther /\
  snd (snd (gparse (greader [text] EOther false 4096) new_sip)) = Ok tt /\
  snd (snd (gparse (greader [text; str "more"] EEof true 4096) new_sip)) = Ok tt.
Proof. eexists. eexists. split; [vm_compute; reflexivity|]. repeat split; vm_compute; reflexivity. Qed.

(** ** C141 *)
(** Refuted: a last line that has no line end and is as long as the buffer. *)
Theorem C141_eof_with_data_refuted : exists blocks size x, 16 <= size /\
  snd (snd (gparse (greader blocks EEof false size) new_sip)) = Err EOther /\
  snd (gparse (greader blocks EEof true size) new_sip) = (x, Ok tt) /\ s_payload x = [].
Proof.
  exists [str "OPTIONS sip:a@b SIP/2.0" ++ [13; 10] ++ str "content-length: 0" ++ [13; 10]; str "x: 1234567890123456789012345678"], 31.
  eexists. split; [lia|]. split; [vm_compute; reflexivity|]. split; vm_compute; reflexivity.
Qed.
Print Assumptions C141_eof_with_data_refuted.
(** Partial: whatever is parsed from a source that returns io.EOF on its own is parsed from the one that returns it with its
    last bytes, with the same result. *)
Theorem C141_eof_with_data_partial : forall blocks size s x r, 0 < size ->
  snd (gparse (greader blocks EEof false size) s) = (x, r) -> (forall e, r <> Err e) ->
  snd (gparse (greader blocks EEof true size) s) = (x, r).
Proof. intros blocks size s x r Hs. apply parse_with, Hs. Qed.
Print Assumptions C141_eof_with_data_partial.
(** With C116: a message arrives whole from either kind of source. *)
Theorem C141_message : forall order s s1 text blocks size with_last,
  plain_message s -> iteration order -> fits size s -> 128 <= size -> sip_bytes order s = Ok (s1, text) ->
  concat blocks = text -> Forall (fun c => c <> []) blocks ->
  exists x, snd (gparse (greader blocks EEof with_last size) new_sip) = (x, Ok tt) /\ same_message s x.
Proof.
  intros order s s1 text cs size w Hm Ho Hf Hz Hb Hc Hcs. destruct (C116_message_round_trip order s s1 text [] cs size Hm Ho Hf Hz Hb) as (b & x & E & M); [rewrite app_nil_r; exact Hc|reflexivity|].
  exists x. split; [|exact M]. assert (E0 : snd (gparse (greader cs EEof false size) new_sip) = (x, Ok tt)) by (rewrite parse_eof; [|lia|exact Hcs]; change (mkB [] false cs size) with (reader cs size); rewrite E; reflexivity).
  destruct w; [|exact E0]. eapply parse_with; [lia|exact E0|discriminate].
Qed.
Print Assumptions C141_message.
Example C141_ex : exists s1 text, sip_bytes (@rev _) (ex_message (str "hello")) = Ok (s1, text) /\
  let a := snd (gparse (greader [firstn 100 text; skipn 100 text] EEof false 4096) new_sip) in
  a = snd (gparse (greader [firstn 100 text; skipn 100 text] EEof true 4096) new_sip) /\ snd a = Ok tt /\ s_payload (fst a) = [13; 10] ++ str "hello".
Proof. eexists. eexists. split; [vm_compute; reflexivity|]. cbv zeta. split; [vm_compute; reflexivity|]. split; vm_compute; reflexivity. Qed.
