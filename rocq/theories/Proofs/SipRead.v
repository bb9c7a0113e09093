(** Proofs about the buffered reader and the SIP message parser. *)
From Coq Require Import String Permutation.
From Verif Require Import Base.Go Base.GoFacts Base.IO Base.Text Model.Sip Spec.Sip Proofs.Text Proofs.Sip Proofs.SipMsg.
Import ListNotations. Local Open Scope list_scope. Local Open Scope Z_scope.
Local Ltac Zify.zify_post_hook ::= Z.div_mod_to_equations.

(** A bufio.Reader between two calls. *)
Definition rinv (b : bufr) : Prop := 0 < bf_size b /\ len (bf_buf b) <= bf_size b /\ bf_eof b = false.

Lemma src_read_spec n cs : 0 < n ->
  match src_read n cs with
  | None => concat cs = []
  | Some (d, cs') => d <> [] /\ len d <= n /\ concat cs = d ++ concat cs'
  end.
Proof.
  intros Hn. induction cs as [|c cs IH]; cbn [src_read]; [reflexivity|]. destruct c as [|x c]; [exact IH|].
  destruct (len (x :: c) <=? n) eqn:E; cbn [concat].
  - split; [discriminate|]. split; [lia|reflexivity].
  - split; [|split].
    + unfold take. intros C. apply (f_equal (@length Z)) in C. rewrite firstn_length in C. cbn [length] in C. lia.
    + rewrite len_take by lia. lia.
    + rewrite app_assoc, take_drop. reflexivity.
Qed.
Lemma app_cut_split (c : Z) (x y l t : bytes) : x ++ y = l ++ c :: t -> Forall (fun z => z <> c) l -> Forall (fun z => z <> c) x ->
  exists l', l = x ++ l' /\ y = l' ++ c :: t.
Proof.
  revert l. induction x as [|a x IH]; intros l E Hl Hx; [exists l; auto|]. destruct l as [|b l].
  - cbn in E. injection E as -> _. inversion Hx; congruence.
  - cbn in E. injection E as -> E. destruct (IH l E) as [l' [-> ->]]; [now inversion Hl|now inversion Hx|]. exists l'. auto.
Qed.
(** The reader holds a line that fits its buffer: ReadSlice returns it, however the source is cut. *)
Lemma read_slice_line fuel : forall b l t, rinv b -> (S (length (concat (bf_src b))) < fuel)%nat ->
  bf_rest b = l ++ 10 :: t -> Forall (fun z => z <> 10) l -> len l + 1 <= bf_size b ->
  exists b', read_slice fuel b = (b', Ok (l ++ [10], false)) /\ bf_rest b' = t /\ rinv b' /\ bf_size b' = bf_size b.
Proof.
  induction fuel as [|f IH]; intros b l t [H1 [H2 H3]] Hf Hr Hl Hs; [lia|]. cbn [read_slice]. unfold bf_rest in Hr.
  destruct (cut 10 (bf_buf b)) as [[l0 r0]|] eqn:E.
  - apply cut_some in E. destruct E as [E Hl0]. rewrite E in Hr. rewrite <- app_assoc in Hr. cbn [app] in Hr.
    assert (C1 : cut 10 (l0 ++ 10 :: r0 ++ concat (bf_src b)) = Some (l0, r0 ++ concat (bf_src b))) by now apply cut_app.
    rewrite Hr in C1. rewrite cut_app in C1 by assumption. injection C1 as -> ->. eexists. split; [reflexivity|]. split; [reflexivity|].
    split; [|reflexivity]. split; [assumption|]. split; [|assumption]. cbn [bf_buf bf_size]. rewrite E in H2. rewrite len_app, len_cons in H2. pose proof (len_nonneg l0). lia.
  - apply cut_none_inv in E. rewrite H3. destruct (app_cut_split _ _ _ _ _ Hr Hl E) as [l' [-> Hsrc]].
    rewrite len_app in Hs. pose proof (len_nonneg l'). replace (len (bf_buf b) >=? bf_size b) with false by lia.
    pose proof (src_read_spec (bf_size b - len (bf_buf b)) (bf_src b)) as Hread. destruct (src_read (bf_size b - len (bf_buf b)) (bf_src b)) as [[d cs]|].
    + destruct Hread as [Hd [Hld Hcat]]; [lia|].
      destruct (IH (mkB (bf_buf b ++ d) false cs (bf_size b)) (bf_buf b ++ l') t) as [b' [E1 [E2 [E3 E4]]]].
      * split; [assumption|]. split; [|reflexivity]. cbn [bf_buf bf_size]. rewrite len_app. lia.
      * cbn [bf_src]. rewrite Hcat in Hf. rewrite app_length in Hf. destruct d; [congruence|]. cbn [length] in Hf. lia.
      * unfold bf_rest. cbn [bf_buf bf_src]. rewrite <- !app_assoc. f_equal. rewrite <- Hcat. exact Hsrc.
      * assumption.
      * cbn [bf_size]. rewrite len_app. lia.
      * exists b'. auto.
    + specialize (Hread ltac:(lia)). rewrite Hread in Hsrc. destruct l'; discriminate.
Qed.
(** At the end of the input. *)
Lemma read_slice_end fuel : forall b, rinv b -> (S (length (concat (bf_src b))) < fuel)%nat ->
  Forall (fun z => z <> 10) (bf_rest b) -> len (bf_rest b) < bf_size b ->
  exists b', read_slice fuel b = (b', Ok (bf_rest b, true)) /\ bf_rest b' = [] /\ rinv b' /\ bf_size b' = bf_size b.
Proof.
  induction fuel as [|f IH]; intros b [H1 [H2 H3]] Hf Hr Hs; [lia|]. cbn [read_slice]. unfold bf_rest in *.
  pose proof (proj1 (proj1 (Forall_app _ _ _) Hr)) as Hbuf. rewrite cut_none by assumption. rewrite H3.
  rewrite len_app in Hs. pose proof (len_nonneg (concat (bf_src b))). replace (len (bf_buf b) >=? bf_size b) with false by lia.
  pose proof (src_read_spec (bf_size b - len (bf_buf b)) (bf_src b)) as Hread. destruct (src_read (bf_size b - len (bf_buf b)) (bf_src b)) as [[d cs]|].
  - destruct Hread as [Hd [Hld Hcat]]; [lia|].
    destruct (IH (mkB (bf_buf b ++ d) false cs (bf_size b))) as [b' [E1 [E2 [E3 E4]]]].
    + split; [assumption|]. split; [|reflexivity]. cbn [bf_buf bf_size]. rewrite len_app. lia.
    + cbn [bf_src]. rewrite Hcat in Hf. rewrite app_length in Hf. destruct d; [congruence|]. cbn [length] in Hf. lia.
    + cbn [bf_buf bf_src]. rewrite <- app_assoc, <- Hcat. exact Hr.
    + cbn [bf_buf bf_src bf_size]. rewrite <- app_assoc, <- Hcat, len_app. lia.
    + exists b'. split; [|auto]. rewrite E1. cbn [bf_buf bf_src]. rewrite <- app_assoc, <- Hcat. reflexivity.
  - specialize (Hread ltac:(lia)). destruct f as [|f']; [lia|]. cbn [read_slice bf_buf bf_eof bf_src bf_size]. rewrite cut_none by assumption.
    eexists. split; [rewrite Hread, app_nil_r; reflexivity|]. split; [reflexivity|]. split; [|reflexivity]. split; [assumption|]. split; [|reflexivity]. cbn [bf_buf bf_size]. change (len (@nil Z)) with 0. lia.
Qed.

(** * The line loop *)
(** The lines of a header section, in order. *)
Fixpoint run_lines (count : Z) (ls : list bytes) (s : sip) : sip * res unit :=
  match ls with
  | [] => (s, Ok tt)
  | l :: ls' => match (if count =? 0 then parse_first_line l s else parse_header l s) with
                | (s', Ok _) => run_lines (count + 1) ls' s'
                | r => r
                end
  end.
Definition line_ok (size : Z) (l : bytes) : Prop := l <> [] /\ without [13; 10] l /\ len l + 2 <= size.
Lemma trim_crlf_line l : without [13; 10] l -> trim_crlf (l ++ [13; 10]) = l.
Proof.
  intros H. unfold trim_crlf. change (l ++ [13; 10]) with ([] ++ l ++ [13; 10]). apply trim_by_wrap; [constructor|repeat constructor|].
  apply solid_none. eapply Forall_impl; [|exact H]. cbn. intros c Hc. lia.
Qed.
(** How the line loop ends: at the empty line, or at the end of the input. *)
Definition ends (tail : bytes) (size : Z) (eol body : bytes) : Prop :=
  (tail = [13; 10] ++ body /\ eol = [13; 10] /\ 2 <= size) \/ (tail = [] /\ eol = [] /\ body = []).
Lemma parse_lines_run ls : forall fuel b count offset buffer s tail eol body,
  rinv b -> Forall (line_ok (bf_size b)) ls -> bf_rest b = with_crlf ls ++ tail -> ends tail (bf_size b) eol body ->
  0 <= count -> (length ls < fuel)%nat ->
  match run_lines count ls s with
  | (s', Ok _) => exists b', parse_lines fuel b count offset buffer s
      = (b', (s', Ok (offset + len (with_crlf ls), buffer ++ with_crlf ls ++ eol))) /\ bf_rest b' = body /\ rinv b' /\ bf_size b' = bf_size b
  | (s', Err e) => exists b', parse_lines fuel b count offset buffer s = (b', (s', Err e))
  | (s', Panic) => exists b', parse_lines fuel b count offset buffer s = (b', (s', Panic))
  | (s', OutOfFuel) => exists b', parse_lines fuel b count offset buffer s = (b', (s', OutOfFuel))
  end.
Proof.
  induction ls as [|l ls IH]; intros fuel b count offset buffer s tail eol body Hb Hls Hrest Hend Hc Hf; (destruct fuel as [|f]; [cbn [length] in Hf; lia|]); cbn [run_lines].
  - cbn [with_crlf flat_map app] in Hrest. destruct Hend as [[-> [-> Hsz]]|[-> [-> ->]]].
    + destruct (read_slice_line (S (S (length (bf_rest b)))) b [13] body) as [b' [E1 [E2 [E3 E4]]]];
        [assumption|unfold bf_rest; rewrite app_length; lia|exact Hrest|repeat constructor; lia|change (len [13]) with 1; lia|].
      exists b'. split; [|auto]. cbn [parse_lines]. rewrite E1. cbn [andb app]. change (len (trim_crlf [13; 10]) =? 0) with true. cbv iota zeta.
      cbn [with_crlf flat_map app]. change (len [13; 10]) with 2. change (len (@nil Z)) with 0. do 4 f_equal. lia.
    + destruct (read_slice_end (S (S (length (bf_rest b)))) b) as [b' [E1 [E2 [E3 E4]]]];
        [assumption|unfold bf_rest; rewrite app_length; lia|rewrite Hrest; constructor|rewrite Hrest; change (len (@nil Z)) with 0; apply Hb|].
      exists b'. split; [|auto]. cbn [parse_lines]. rewrite E1, Hrest. change (true && (len (@nil Z) =? 0)) with true. cbv iota.
      cbn [with_crlf flat_map app]. change (len (@nil Z)) with 0. rewrite app_nil_r. do 4 f_equal. lia.
  - inversion Hls as [|x y [L1 [L2 L3]] Hls']; subst.
    cbn [with_crlf flat_map] in Hrest. rewrite <- !app_assoc in Hrest. cbn [app] in Hrest.
    destruct (read_slice_line (S (S (length (bf_rest b)))) b (l ++ [13]) (with_crlf ls ++ tail)) as [b' [E1 [E2 [E3 E4]]]].
    + assumption.
    + unfold bf_rest. rewrite app_length. lia.
    + rewrite Hrest. rewrite <- app_assoc. reflexivity.
    + apply Forall_app. split; [eapply Forall_impl; [|exact L2]; cbn; intros; lia|repeat constructor; lia].
    + rewrite len_app. change (len [13]) with 1. lia.
    + cbn [parse_lines]. rewrite E1. cbn [andb]. cbv iota zeta. rewrite <- app_assoc. cbn [app]. rewrite trim_crlf_line by assumption.
      replace (len l =? 0) with false; [|symmetry; apply Z.eqb_neq; intros C; apply L1; now apply len_zero].
      destruct (if count =? 0 then parse_first_line l s else parse_header l s) as [s1 [u|e| |]]; [|eauto|eauto|eauto].
      specialize (IH f b' (count + 1) (offset + len (l ++ [13; 10])) (buffer ++ l ++ [13; 10]) s1 tail eol body E3).
      rewrite E4 in IH. specialize (IH Hls' E2 Hend ltac:(lia) ltac:(cbn [length] in Hf; lia)).
      destruct (run_lines (count + 1) ls s1) as [s2 [u2|e| |]]; [|exact IH|exact IH|exact IH].
      destruct IH as [b2 [F1 F2]]. exists b2. split; [|exact F2]. rewrite F1. unfold with_crlf. cbn [flat_map].
      do 4 f_equal; [rewrite !len_app; change (len [13; 10]) with 2; lia|]. rewrite <- !app_assoc. reflexivity.
Qed.

(** * The body *)
Lemma body_loop_done fuel size body b : size <= 0 -> body_loop fuel size body b = (b, Ok body).
Proof. intros H. destruct fuel; cbn [body_loop]; replace (size <=? 0) with true by lia; reflexivity. Qed.
Lemma src_read_one n x s : 0 < n -> len (x :: s) <= n -> src_read n [x :: s] = Some (x :: s, []).
Proof. intros H1 H2. cbn [src_read]. replace (len (x :: s) <=? n) with true by lia. reflexivity. Qed.
(** Everything that is left is in the buffer: one Read takes it all, whatever Content-Length says. *)
Lemma body_buffered fuel size b : rinv b -> bf_size b <= 4096 -> concat (bf_src b) = [] -> 0 < size -> (1 < fuel)%nat ->
  exists b', body_loop fuel size [] b = (b', Ok (bf_buf b)) /\ bf_rest b' = [].
Proof.
  intros [H1 [H2 H3]] Hs Hsrc Hz Hf. destruct fuel as [|[|f]]; try lia. cbn [body_loop]. replace (size <=? 0) with false by lia. cbv iota.
  assert (Hnone : forall n, 0 < n -> src_read n (bf_src b) = None).
  { intros n Hn. pose proof (src_read_spec n (bf_src b) Hn) as R. destruct (src_read n (bf_src b)) as [[d cs]|]; [|reflexivity].
    destruct R as [R1 [_ R2]]. rewrite Hsrc in R2. symmetry in R2. apply app_eq_nil in R2. tauto. }
  unfold buf_read at 1. destruct (bf_buf b) as [|x d] eqn:E.
  - rewrite H3. replace (4096 >=? bf_size b) with true by lia. rewrite Hnone by lia. eexists. split; [reflexivity|]. reflexivity.
  - assert (Ht : take (x :: d) 4096 = x :: d) by (unfold take; apply firstn_all2; unfold len in H2; lia).
    assert (Hd : drop (x :: d) 4096 = []) by (unfold drop; apply skipn_all2; unfold len in H2; lia). rewrite Ht, Hd. cbn [app].
    destruct (size - len (x :: d) <=? 0) eqn:E2.
    + eexists. split; [reflexivity|]. exact Hsrc.
    + unfold buf_read. cbn [bf_buf bf_eof bf_size bf_src]. rewrite H3. replace (4096 >=? bf_size b) with true by lia. rewrite Hnone by lia.
      eexists. split; [reflexivity|]. reflexivity.
Qed.
