(** Property C201: messages without payload that follow one another are read as one message. *)
From Coq Require Import String Permutation.
From Verif Require Import Base.Go Base.GoFacts Base.IO Base.Text Model.Sip Spec.Sip Spec.SipLine Spec.SipAddr Spec.SipWhole Spec.SipMany Spec.SipPipe
  Proofs.Text Proofs.Sip Proofs.SipMsg Proofs.SipText Proofs.SipFields Proofs.SipWhole Proofs.SipMany Proofs.SipPipe Props.Sip Props.SipMsg Props.SipAddr Props.SipWhole Props.SipMany.
Import ListNotations. Local Open Scope list_scope. Local Open Scope Z_scope.

(** ** C201 *)
Section C201.
(** The messages m and ms have no payload; the message z behind them may have one. Their texts arrive one behind the other, in blocks
    of any sizes. *)
Context (m : sending) (ms : list sending) (z : sending) (blocks : list bytes) (size : Z).
Context (Hs : Forall (is_sent size) (m :: ms ++ [z])) (Hp : Forall (fun k => s_payload (sent_message k) = []) (m :: ms)) (Hz : 2 <= size) (Hc : concat blocks = flat_map text_sent (m :: ms ++ [z])).
Notation fs := (fields_of m (ms ++ [z])).

Local Lemma the_lines : exists used tail eol, begins size (concat blocks) (lines_sent m ++ flat_map lines_sent (ms ++ [z])) used tail /\ ends_here size tail eol (s_payload (sent_message z)) /\
  eol = (match s_payload (sent_message z) with [] => [] | _ => [13; 10] end).
Proof.
  pose proof Hs as H0. rewrite app_comm_cons in H0. apply Forall_app in H0 as [Hm Hlast]. apply Forall_inv in Hlast.
  assert (E : concat blocks = with_crlf (flat_map lines_sent (m :: ms ++ [z])) ++ blank_and_body (s_payload (sent_message z))).
  { rewrite Hc, app_comm_cons, !flat_map_app, with_crlf_app. rewrite (all_text size (m :: ms)).
    - rewrite <- app_assoc. f_equal. cbn [flat_map]. rewrite !app_nil_r. apply (sent_facts size z Hlast).
    - apply Forall_forall. intros k I. rewrite Forall_forall in Hm, Hp. auto. }
  rewrite E. destruct (all_lines size _ Hs) as [G L]. exists (with_crlf (flat_map lines_sent (m :: ms ++ [z])) ++ []), (blank_and_body (s_payload (sent_message z))), (match s_payload (sent_message z) with [] => [] | _ => [13; 10] end).
  split; [|split; [|reflexivity]].
  - replace (lines_sent m ++ flat_map lines_sent (ms ++ [z])) with (flat_map lines_sent (m :: ms ++ [z]) ++ []) by (rewrite app_nil_r; reflexivity). apply begins_app; [exact G|exact L|constructor].
  - destruct (s_payload (sent_message z)) as [|c p]; [now left|]. right. split.
    + split; [reflexivity|]. split; [discriminate|]. left. split; [exists [13]; split; [reflexivity|repeat constructor; cbn; lia]|exact Hz].
    + exists [], [13; 10]. split; [reflexivity|]. split; [constructor|]. split; [constructor; [now left|constructor; [now right|constructor]]|]. split; intros c0 u E0; [discriminate|destruct u; discriminate].
Qed.
Local Lemma the_fields : lines_read new_sip (lines_sent m ++ flat_map lines_sent (ms ++ [z])) (after_first (sent_message m) new_sip) fs.
Proof.
  pose proof (Forall_inv Hs) as Hm. destruct (sent_facts size m Hm) as (Tm & Th & _). destruct (message_read (sent_message m) (headers_sent m) Tm Th) as [[X _]|(f & hs & X & Y & F)]; [discriminate|]. injection X as <- <-.
  right. exists (first_text (sent_message m)), (sent_lines (headers_sent m) ++ flat_map lines_sent (ms ++ [z])). split; [reflexivity|]. split; [exact Y|].
  exact (more_messages size _ (Forall_inv_tail Hs) _ _ F).
Qed.
(** The values of each header are those of all the messages, in their order. *)
Theorem C201_values : forall n, ~ In 32 n -> values fs n = flat_map (value_sent n) (m :: ms ++ [z]).
Proof. intros n N. exact (stream_values size m (ms ++ [z]) n (Forall_inv Hs) (Forall_inv_tail Hs) N). Qed.
Local Lemma first_length : numeral (first_value fs (str "content-length")) 0.
Proof.
  unfold first_value. rewrite C201_values by (vm_compute; intuition discriminate). cbn [flat_map]. destruct (sent_facts size m (Forall_inv Hs)) as (_ & _ & _ & _ & _ & _ & E). rewrite E, (Forall_inv Hp). cbn [app hd].
  apply Proofs.SipLine.atoi_iff. vm_compute. reflexivity.
Qed.
(** One call of Parse reads all of them: the object has the first line of the first, the headers of all, and a request line behind the
    first as a header; the payload behind them is not read. *)
Theorem C201_object : typed fs -> exists b x, sip_parse (reader blocks size) new_sip = (b, (x, Ok tt)) /\ same_first_line (sent_message m) x /\
  (forall n, get_header (s_headers x) n = values fs (to_lower n)) /\
  (exists used, message_of x fs used (s_payload x) x) /\
  s_payload x = (match s_payload (sent_message z) with [] => [] | _ => [13; 10] end) /\ bf_rest b = s_payload (sent_message z).
Proof.
  intros T. destruct the_lines as (used & tail & eol & B & E & Ee). pose proof first_length as N. destruct (sent_facts size m (Forall_inv Hs)) as ((H0 & Hm') & _).
  destruct (C156_object blocks size new_sip ltac:(lia) eq_refl _ _ _ _ _ _ _ _ B E the_fields T N) as (b & x & d & P & M & D1 & D2 & D3). exists b, x. split; [exact P|].
  rewrite (D2 (len_nonneg eol)) in *. rewrite app_nil_r in M. cbn [app] in D1.
  pose proof M as M0. destruct M as ((V1 & V2 & V3 & V4 & V5 & V6) & (h & Em & Gm) & _ & _ & _ & _ & _ & _ & Pl).
  split; [|split; [|split; [|split]]].
  - unfold same_first_line. rewrite V1, V4, V2, V3, V5, V6. unfold after_first. set (s := sent_message m) in *. destruct (s_isresp s) eqn:Er; cbn; rewrite ?Er; [repeat split|].
    split; [reflexivity|]. split; [reflexivity|]. split; [reflexivity|]. destruct H0 as (_ & r & Hr & _). rewrite Hr. exists r, (request_stored r). split; [reflexivity|]. split; [reflexivity|]. repeat split; reflexivity.
  - intros n. rewrite Em. rewrite get_header_vals; [|intros k; rewrite Gm; destruct (values fs k); discriminate]. unfold hvals, hlook. rewrite Gm. destruct (values fs (to_lower n)); reflexivity.
  - exists used. destruct M0 as (_ & M1). split; [repeat split|]. rewrite <- Pl in M1. exact M1.
  - rewrite Pl. exact Ee.
  - symmetry. exact D1.
Qed.
Theorem C201_accepted : (exists b x, sip_parse (reader blocks size) new_sip = (b, (x, Ok tt))) <-> typed fs.
Proof.
  split; [|intros T; destruct (C201_object T) as (b & x & P & _); eauto]. intros (b & x & P). destruct (typed_dec fs) as [T|T]; [exact T|exfalso].
  destruct the_lines as (used & tail & eol & B & E & Ee). destruct (proj2 (C156_panics blocks size new_sip ltac:(lia) eq_refl)) as (b' & x' & P'); [|congruence].
  right. right. do 7 eexists. split; [exact B|]. split; [exact E|]. split; [exact the_fields|exact T].
Qed.
Theorem C201_panics : (exists b x, sip_parse (reader blocks size) new_sip = (b, (x, Panic))) <-> ~ typed fs.
Proof.
  split; [intros (b & x & P) T; destruct (C201_object T) as (b' & x' & P' & _); congruence|]. intros T.
  destruct the_lines as (used & tail & eol & B & E & Ee). apply (C156_panics blocks size new_sip ltac:(lia) eq_refl). right. right. do 7 eexists. split; [exact B|]. split; [exact E|]. split; [exact the_fields|exact T].
Qed.
(** Content-Length has a value for each. *)
Theorem C201_lengths : values fs (str "content-length") = map (fun k => itoa (len (s_payload (sent_message k)))) (m :: ms ++ [z]).
Proof.
  rewrite C201_values by (vm_compute; intuition discriminate). clear Hc Hp. induction Hs as [|k l H _ IH]; [reflexivity|]. cbn [flat_map map]. destruct (sent_facts size k H) as (_ & _ & _ & _ & _ & _ & E). rewrite E. cbn [app]. f_equal. exact (IH (Forall_inv_tail Hs)).
Qed.
End C201.
Print Assumptions C201_values.
Print Assumptions C201_object.
Print Assumptions C201_accepted.
Print Assumptions C201_panics.
Print Assumptions C201_lengths.

(** Two responses; and two requests, the second of which becomes a header. *)
Example C201_example :
  (exists l text, is_sent 4096 (ex_hops [], l, text) /\ s_payload (ex_hops []) = [] /\ typed (fields_of (ex_hops [], l, text) [(ex_hops [], l, text)])) /\
  exists s1 text x, sip_bytes (fun m => m) (ex_message []) = Ok (s1, text) /\ sip_parse_bytes (text ++ text) new_sip = (x, Ok tt) /\
    get_header (s_headers x) (str "to") = [str "<sip:c@d>"; str "<sip:c@d>"] /\ get_header (s_headers x) (str "INVITE sip") = [str "bob@biloxi.com:5060;transport=tcp SIP/2.0"].
Proof.
  split.
  - destruct C196_example as (T & (s1 & m1 & text & Hb & H1 & N & F & Ty & _) & _). exists m1, text. split; [|split; [reflexivity|]].
    + exists (fun m => m), s1, m1. split; [exact T|]. split; [intros m; apply Permutation_refl|]. split; [exact Hb|]. split; [exact H1|]. split; [reflexivity|]. split; [exact N|exact F].
    + pose proof Hb as E. pose proof H1 as E1. vm_compute in E. injection E as <- _. vm_compute in E1. injection E1 as <-. split.
      * intros n [<-|[<-|[<-|[]]]]; eexists; apply C154_address_exactly; vm_compute; reflexivity.
      * eexists. apply C154_via_exactly. vm_compute. reflexivity.
  - do 3 eexists. split; [vm_compute; reflexivity|]. split; [vm_compute; reflexivity|]. split; vm_compute; reflexivity.
Qed.
