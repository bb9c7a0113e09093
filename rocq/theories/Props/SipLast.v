(** C212: when it matters to Parse whether io.EOF comes with the last bytes or after them. *)
From Coq Require Import String.
From Verif Require Import Base.Go Base.GoFacts Base.IO Base.Text Model.Sip Model.SipSrc Spec.Sip Spec.SipWhole Spec.SipAgain Proofs.SipSrc Proofs.SipLine Proofs.SipMany Proofs.SipLast Props.SipAgain.
Import ListNotations. Local Open Scope list_scope. Local Open Scope Z_scope.

(** After some lines of the text, all that is left has no line feed and is exactly as long as the buffer. *)
Definition last_line_fills (size : Z) (text : bytes) (lines : list bytes) (last : bytes) : Prop :=
  exists used, begins size text lines used last /\ without [10] last /\ len last = size.

(** If there is no such last line, both sources give the same: the same object and the same result, be it an error, a panic or
    none. *)
Theorem C212_same : forall blocks size s, 0 < size -> Forall (fun c => c <> []) blocks ->
  (forall lines last, ~ last_line_fills size (concat blocks) lines last) ->
  snd (gparse (greader blocks EEof true size) s) = snd (gparse (greader blocks EEof false size) s).
Proof.
  intros blocks size s Hs F N. apply parse_agree; [exact Hs|exact F|]. intros (ls & used & tail & H). apply (N ls tail). exists used. exact H.
Qed.
Print Assumptions C212_same.
(** If there is one and io.EOF comes with it, it is read as every buffer that is larger reads it, whichever way io.EOF comes
    there and in whatever blocks. *)
Theorem C212_with_last_bytes : forall blocks size s lines last, 0 < size -> Forall (fun c => c <> []) blocks ->
  last_line_fills size (concat blocks) lines last ->
  forall blocks' with_last size', Forall (fun c => c <> []) blocks' -> concat blocks' = concat blocks -> size < size' ->
  snd (gparse (greader blocks EEof true size) s) = snd (gparse (greader blocks' EEof with_last size') s).
Proof.
  intros blocks size s lines last Hs F (used & B & W & L) blocks' w size' F' E Hz. destruct (parse_full size (concat blocks) lines used last s B W L Hs) as [x Hx].
  rewrite (Hx (greader blocks EEof true size)), (Hx (greader blocks' EEof w size')); try reflexivity.
  - split; [|right; exact Hz]. split; [split; cbn; [lia|change (len (@nil Z)) with 0; lia]|]. cbn. auto.
  - exact E.
  - split; [|left; split; reflexivity]. split; [split; cbn; [lia|change (len (@nil Z)) with 0; lia]|]. cbn. auto.
Qed.
Print Assumptions C212_with_last_bytes.
(** If io.EOF comes after it, the message is refused, provided the lines before it can be read. *)
Theorem C212_after_last_bytes : forall blocks size s lines last y t m, 0 < size -> Forall (fun c => c <> []) blocks ->
  last_line_fills size (concat blocks) lines last -> lines_into s lines y t m ->
  exists x e, snd (gparse (greader blocks EEof false size) s) = (x, Err e).
Proof.
  intros blocks size s lines last y t m Hs F (used & B & W & L) I. destruct (proj2 (C185_refused blocks size s Hs)) as (b & x & e & E).
  - right. left. exists lines, used, last, y, t, m. split; [exact B|]. split; [|exact I]. exists last, []. rewrite app_nil_r. auto.
  - exists x, e. rewrite parse_eof; [|exact Hs|exact F]. change (mkB [] false blocks size) with (reader blocks size). rewrite E. reflexivity.
Qed.
Print Assumptions C212_after_last_bytes.

(** A buffer of 31 bytes, and a message whose last line has 31, 30 and 32 bytes; the first of them as a buffer of 4096 bytes
    reads it. *)
Definition short_lines : list bytes := [str "OPTIONS sip:a@b SIP/2.0"; str "content-length: 0"].
Definition last31 : bytes := str "x: 1234567890123456789012345678".
Example C212_fills : last_line_fills 31 (concat [with_crlf short_lines; last31]) short_lines last31 /\ exists y t m, lines_into new_sip short_lines y t m.
Proof.
  split.
  - exists (with_crlf short_lines). split; [|split; [repeat constructor; intros [K|[]]; discriminate K|reflexivity]].
    change (concat [with_crlf short_lines; last31]) with (with_crlf short_lines ++ last31). apply begins_lines.
    + repeat constructor; try discriminate; intros [K|[K|[]]]; discriminate K.
    + repeat constructor; vm_compute; congruence.
  - eexists (fst (parse_first_line (str "OPTIONS sip:a@b SIP/2.0") new_sip)), _, _. right. exists (str "OPTIONS sip:a@b SIP/2.0"), [str "content-length: 0"]. split; [reflexivity|]. split; [replace (Ok tt) with (snd (parse_first_line (str "OPTIONS sip:a@b SIP/2.0") new_sip)) by (vm_compute; reflexivity); apply first_line_sound|].
    apply (I_field _ _ (s_last new_sip) [] (stored new_sip) (s_last new_sip) (str "content-length: 0") (str "content-length") (str " 0") (str "content-length") (str "0")); [apply I_none|..].
    + discriminate.
    + intros [u [H|H]]; discriminate H.
    + reflexivity.
    + repeat constructor; intros [K|[]]; discriminate K.
    + exists [], []. repeat split; auto; [intros c u H; injection H as <- _; discriminate|intros c u H]. apply (f_equal (fun l => hd 0 (rev l))) in H. rewrite rev_app_distr in H. cbn in H. lia.
    + exists [32], []. repeat split; auto; [intros c u H; injection H as <- _; discriminate|intros c u H]. apply (f_equal (fun l => hd 0 (rev l))) in H. rewrite rev_app_distr in H. cbn in H. lia.
Qed.
Example C212_example :
  let parsed last w size := snd (gparse (greader [with_crlf short_lines; last] EEof w size) new_sip) in
  snd (parsed last31 false 31) = Err EOther /\ parsed last31 true 31 = parsed last31 false 4096 /\ snd (parsed last31 true 31) = Ok tt /\
  get_header (s_headers (fst (parsed last31 true 31))) (str "x") = [str "1234567890123456789012345678"] /\
  parsed (removelast last31) true 31 = parsed (removelast last31) false 31 /\ snd (parsed (removelast last31) true 31) = Ok tt /\
  parsed (last31 ++ str "9") true 31 = parsed (last31 ++ str "9") false 31 /\ snd (parsed (last31 ++ str "9") true 31) = Err EOther.
Proof. cbv zeta. do 7 (split; [vm_compute; reflexivity|]). vm_compute. reflexivity. Qed.
