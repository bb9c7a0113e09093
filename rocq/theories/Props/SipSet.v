(** C221: SetHeader and SetBody on a received message. *)
From Coq Require Import String.
From Verif Require Import Base.Go Base.GoFacts Base.IO Base.Text Model.Sip Spec.Sip Props.Sip Props.SipMsg Props.SipStream.
Import ListNotations. Local Open Scope list_scope. Local Open Scope Z_scope.

(** A call of SetHeader or SetBody, and a message after several of them. *)
Inductive edit := SetHeaders (h : header) | SetBody (b : bytes).
Definition edited (es : list edit) (s : sip) : sip :=
  fold_left (fun s e => match e with SetHeaders h => with_headers h s | SetBody b => set_body b s end) es s.
(** What the last call of each kind was given, if there was one. *)
Fixpoint last_headers (es : list edit) (old : header) : header :=
  match es with [] => old | SetHeaders h :: es' => last_headers es' h | SetBody _ :: es' => last_headers es' old end.
Fixpoint last_body (es : list edit) (old : bytes) : bytes :=
  match es with [] => old | SetBody b :: es' => last_body es' b | SetHeaders _ :: es' => last_body es' old end.

(** ** C221: after any such calls on a message that Parse read, LayerContents is still what was read up to the empty line, the headers and
    the body are those of the last calls, and nothing else has changed. *)
Theorem C221_edits : forall blocks size s b x es, 0 < size -> sip_parse (reader blocks size) s = (b, (x, Ok tt)) ->
  let y := edited es x in
  concat blocks = s_contents y ++ s_payload x ++ bf_rest b /\ s_headers y = last_headers es (s_headers x) /\ s_payload y = last_body es (s_payload x) /\
  s_isresp y = s_isresp x /\ s_method y = s_method x /\ s_request y = s_request x /\ s_version y = s_version x /\ s_code y = s_code x /\ s_status y = s_status x /\
  s_from y = s_from x /\ s_to y = s_to x /\ s_contact y = s_contact x /\ s_cseq y = s_cseq x /\ s_via y = s_via x.
Proof.
  intros blocks size s b x es Hz HP. destruct (C115_contents_payload _ _ _ _ _ Hz HP) as [E _]. clear HP.
  assert (G : forall es z, let y := edited es z in s_contents y = s_contents z /\ s_headers y = last_headers es (s_headers z) /\ s_payload y = last_body es (s_payload z) /\
    s_isresp y = s_isresp z /\ s_method y = s_method z /\ s_request y = s_request z /\ s_version y = s_version z /\ s_code y = s_code z /\ s_status y = s_status z /\
    s_from y = s_from z /\ s_to y = s_to z /\ s_contact y = s_contact z /\ s_cseq y = s_cseq z /\ s_via y = s_via z).
  { clear. induction es as [|[h|p] es IH]; intros z y; [repeat split; reflexivity| |].
    - exact (IH (with_headers h z)).
    - exact (IH (set_body p z)). }
  destruct (G es x) as (G1 & G2). cbv zeta. rewrite G1. split; [exact E|exact G2].
Qed.
(** What Bytes writes then depends on the last call of each kind alone, and Bytes does not undo them. *)
Theorem C221_text : forall es1 es2 order x, last_headers es1 (s_headers x) = last_headers es2 (s_headers x) -> last_body es1 (s_payload x) = last_body es2 (s_payload x) ->
  sip_bytes order (edited es1 x) = sip_bytes order (edited es2 x).
Proof.
  assert (G : forall es x, edited es x = set_body (last_body es (s_payload x)) (with_headers (last_headers es (s_headers x)) x)).
  { induction es as [|[h|p] es IH]; intros x; [destruct x; reflexivity| |]; (etransitivity; [apply IH|]); reflexivity. }
  intros es1 es2 order x E1 E2. rewrite (G es1), (G es2), E1, E2. reflexivity.
Qed.
Example C221_ex :
  let text := with_crlf [str "SIP/2.0 200 OK"; str "Content-Length: 5"] ++ [13; 10] ++ str "hello" in
  exists b x, sip_parse (reader [text] 64) new_sip = (b, (x, Ok tt)) /\
    s_contents (edited [SetBody (str "a"); SetHeaders (Some [(str "via", [str "v"])]); SetBody (str "bye")] x) = with_crlf [str "SIP/2.0 200 OK"; str "Content-Length: 5"] /\
    option_map snd (match sip_bytes (fun m => m) (edited [SetBody (str "a"); SetHeaders (Some [(str "via", [str "v"])]); SetBody (str "bye")] x) with Ok r => Some r | _ => None end)
      = Some (with_crlf [str "SIP/2.0 200 OK"; str "via: v"; str "content-length: 3"] ++ [13; 10] ++ str "bye").
Proof. eexists. eexists. split; [vm_compute; reflexivity|]. vm_compute. split; reflexivity. Qed.
Print Assumptions C221_edits.
Print Assumptions C221_text.
(** What the receiver of the edited message finds: the headers and addresses of the last SetHeader call, also where the edited object itself still
    gives the addresses it was received with, the length of the last body, and the start line that was received. *)
Theorem C221_forward : forall blocks size s b x es order s1 text blocks2 size2, 0 < size -> sip_parse (reader blocks size) s = (b, (x, Ok tt)) ->
  plain_message (edited es x) -> iteration order -> fits size2 (edited es x) -> 128 <= size2 -> sip_bytes order (edited es x) = Ok (s1, text) -> concat blocks2 = text ->
  exists b2 x2, sip_parse (reader blocks2 size2) new_sip = (b2, (x2, Ok tt)) /\
    (forall n, get_header (s_headers x2) n = if bytes_eqb (to_lower n) (str "content-length") then [itoa (len (last_body es (s_payload x)))] else get_header (last_headers es (s_headers x)) n) /\
    (exists u, new_user (get_first (last_headers es (s_headers x)) (str "from")) = Ok u /\ s_from x2 = Some u) /\ s_from (edited es x) = s_from x /\
    s_isresp x2 = s_isresp x /\ (if s_isresp x then s_code x2 = s_code x else s_method x2 = s_method x /\ exists r r', s_request x = Some r /\ s_request x2 = Some r' /\
      r_type r' = r_type r /\ r_user r' = r_user r /\ r_host r' = r_host r /\ r_port r' = r_port r /\ same_map (r_args r') (r_args r)).
Proof.
  intros blocks size s b x es order s1 text blocks2 size2 Hz HP HM HO HF H2 HB HC. destruct (C221_edits _ _ _ _ _ es Hz HP) as (_ & Eh & Ep & Er & Em & Eq & _ & Ec & _ & Ef & _).
  destruct (C116_message_round_trip order (edited es x) s1 text [] blocks2 size2 HM HO HF H2 HB) as (b2 & x2 & E & S1 & _ & S3 & S4 & _ & S5 & _); [rewrite app_nil_r; exact HC|reflexivity|].
  rewrite Eh, Ep in S1. rewrite Eh in S5. rewrite Er in S3, S4. rewrite Ec, Em, Eq in S4. exists b2, x2. split; [exact E|]. split; [exact S1|]. split; [exact S5|]. split; [exact Ef|]. split; [exact S3|].
  destruct (s_isresp x); [exact (proj1 S4)|exact S4].
Qed.
Print Assumptions C221_forward.
(** The text of a plain request, received byte by byte; then new headers and a new body. *)
Example C221_forward_ex : exists s1 text b x, sip_bytes (fun m => m) (ex_message (str "v=0")) = Ok (s1, text) /\ sip_parse (reader (map (fun c => [c]) text) 4096) new_sip = (b, (x, Ok tt)) /\
  plain_message (edited [SetHeaders (Some ex_headers); SetBody (str "hi")] x) /\ fits 4096 (edited [SetHeaders (Some ex_headers); SetBody (str "hi")] x).
Proof.
  eexists. eexists. eexists. eexists. split; [vm_compute; reflexivity|]. split; [vm_compute; reflexivity|]. split.
  - destruct (ex_message_plain (str "hi") ltac:(vm_compute; discriminate)) as (P1 & P2 & P3 & P4). split; [|split; [exact P2|]; split; [exact P3|exact P4]].
    cbn [edited fold_left set_body with_headers with_layer s_isresp s_method s_request]. split; [lia|]. destruct P1 as [_ (r & E & P)]. vm_compute in E. injection E as <-. eexists. split; [reflexivity|exact P].
  - destruct (ex_message_fits (str "hi")) as [F1 F2]. split; [|exact F2]. intros l E. apply F1. rewrite <- E. vm_compute. reflexivity.
Qed.
