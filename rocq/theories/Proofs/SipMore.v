(** Further proofs about the SIP parser: every input, every way the source is cut. *)
From Coq Require Import String Permutation.
From Verif Require Import Base.Go Base.GoFacts Base.IO Base.Text Model.Sip Spec.Sip Proofs.Text Proofs.Sip Proofs.SipMsg Proofs.SipRead Proofs.SipText Proofs.SipParse.
Import ListNotations. Local Open Scope list_scope. Local Open Scope Z_scope.
Local Ltac Zify.zify_post_hook ::= Z.div_mod_to_equations.

(** * ReadSlice depends on the remaining bytes only *)
Definition line_of (size : Z) (r : bytes) : option (bytes * bool * bytes) :=
  match cut 10 r with
  | Some (l, t) => if len l + 1 <=? size then Some (l ++ [10], false, t) else None
  | None => if len r <? size then Some (r, true, []) else None
  end.
Lemma read_slice_full fuel : forall b, rinv b -> (S (length (concat (bf_src b))) < fuel)%nat ->
  Forall (fun z => z <> 10) (take (bf_rest b) (bf_size b)) -> bf_size b <= len (bf_rest b) -> exists b' e, read_slice fuel b = (b', Err e).
Proof.
  induction fuel as [|f IH]; intros b [H1 [H2 H3]] Hf Hr Hs; [lia|]. cbn [read_slice].
  assert (Hbuf : Forall (fun z => z <> 10) (bf_buf b)).
  { unfold bf_rest, take in Hr. rewrite firstn_app in Hr. apply Forall_app in Hr. destruct Hr as [Hr _]. rewrite firstn_all2 in Hr; [exact Hr|]. unfold len in H2. lia. }
  rewrite cut_none by assumption. rewrite H3. destruct (len (bf_buf b) >=? bf_size b) eqn:E; [eauto|].
  pose proof (src_read_spec (bf_size b - len (bf_buf b)) (bf_src b)) as Hread. destruct (src_read (bf_size b - len (bf_buf b)) (bf_src b)) as [[d cs]|].
  - destruct Hread as [Hd [Hld Hcat]]; [lia|].
    assert (Hr' : bf_rest (mkB (bf_buf b ++ d) false cs (bf_size b)) = bf_rest b) by (unfold bf_rest; cbn [bf_buf bf_src]; rewrite Hcat, app_assoc; reflexivity).
    apply IH; [split; [assumption|split; [cbn [bf_buf bf_size]; rewrite len_app; lia|reflexivity]]| |rewrite Hr'; exact Hr|rewrite Hr'; exact Hs].
    cbn [bf_src]. rewrite Hcat, app_length in Hf. destruct d; [congruence|]. cbn [length] in Hf. lia.
  - specialize (Hread ltac:(lia)). unfold bf_rest in Hs. rewrite Hread, app_nil_r in Hs. lia.
Qed.
Lemma read_slice_pure b fuel : rinv b -> (S (length (concat (bf_src b))) < fuel)%nat ->
  match line_of (bf_size b) (bf_rest b) with
  | Some (l, e, t) => exists b', read_slice fuel b = (b', Ok (l, e)) /\ bf_rest b' = t /\ rinv b' /\ bf_size b' = bf_size b
  | None => exists b' e, read_slice fuel b = (b', Err e)
  end.
Proof.
  intros Hb Hf. unfold line_of. destruct (cut 10 (bf_rest b)) as [[l t]|] eqn:E.
  - apply cut_some in E. destruct E as [E Hl]. destruct (len l + 1 <=? bf_size b) eqn:Es.
    + apply read_slice_line; auto. lia.
    + apply read_slice_full; auto; rewrite E.
      * unfold take. rewrite firstn_app. replace (Z.to_nat (bf_size b) - length l)%nat with 0%nat by (unfold len in Es; lia). cbn [firstn]. rewrite app_nil_r.
        apply Forall_forall. intros z Hz. rewrite Forall_forall in Hl. apply Hl. rewrite <- (firstn_skipn (Z.to_nat (bf_size b)) l). apply in_or_app. now left.
      * rewrite len_app, len_cons. pose proof (len_nonneg t). lia.
  - apply cut_none_inv in E. destruct (len (bf_rest b) <? bf_size b) eqn:Es.
    + destruct (read_slice_end fuel b Hb Hf E ltac:(lia)) as [b' [E1 [E2 [E3 E4]]]]. exists b'. auto.
    + apply read_slice_full; auto; [|lia]. unfold take. apply Forall_forall. intros z Hz. rewrite Forall_forall in E. apply E.
      rewrite <- (firstn_skipn (Z.to_nat (bf_size b)) (bf_rest b)). apply in_or_app. now left.
Qed.
Lemma line_of_split size r l e t : line_of size r = Some (l, e, t) -> r = l ++ t /\ (l = [] -> e = true /\ t = []).
Proof.
  unfold line_of. destruct (cut 10 r) as [[l0 t0]|] eqn:E.
  - apply cut_some in E. destruct E as [-> _]. destruct (len l0 + 1 <=? size); [|discriminate]. intros H. injection H as <- <- <-. rewrite <- app_assoc. split; [reflexivity|].
    intros C. apply app_eq_nil in C. destruct C; discriminate.
  - destruct (len r <? size); [|discriminate]. intros H. injection H as <- <- <-. rewrite app_nil_r. auto.
Qed.

(** * The line loop depends on the remaining bytes only *)
Fixpoint lines_pure (fuel : nat) (size : Z) (r : bytes) (count offset : Z) (buffer : bytes) (s : sip) : sip * res (Z * bytes * bytes) :=
  match fuel with
  | O => (s, OutOfFuel)
  | S f =>
      match line_of size r with
      | None => (s, Err EOther)
      | Some (line, eof, t) =>
          if eof && (len line =? 0) then (s, Ok (offset, buffer, t)) else
          if len (trim_crlf line) =? 0 then (s, Ok (offset, buffer ++ line, t)) else
          match (if count =? 0 then parse_first_line (trim_crlf line) s else parse_header (trim_crlf line) s) with
          | (s', Ok _) => lines_pure f size t (count + 1) (offset + len line) (buffer ++ line) s'
          | (s', Err e) => (s', Err e)
          | (s', Panic) => (s', Panic)
          | (s', OutOfFuel) => (s', OutOfFuel)
          end
      end
  end.
(** Same outcome; the error is whatever it is. *)
Lemma parse_lines_pure fuel : forall b count offset buffer s, rinv b ->
  match lines_pure fuel (bf_size b) (bf_rest b) count offset buffer s with
  | (s', Ok (o, bu, t)) => exists b', parse_lines fuel b count offset buffer s = (b', (s', Ok (o, bu))) /\ bf_rest b' = t /\ rinv b' /\ bf_size b' = bf_size b
  | (s', Err _) => exists b' e, parse_lines fuel b count offset buffer s = (b', (s', Err e))
  | (s', Panic) => exists b', parse_lines fuel b count offset buffer s = (b', (s', Panic))
  | (s', OutOfFuel) => exists b', parse_lines fuel b count offset buffer s = (b', (s', OutOfFuel))
  end.
Proof.
  induction fuel as [|f IH]; intros b count offset buffer s Hb; cbn [lines_pure parse_lines]; [eauto|].
  pose proof (read_slice_pure b (S (S (length (bf_rest b)))) Hb) as R. assert (Hf : (S (length (concat (bf_src b))) < S (S (length (bf_rest b))))%nat) by (unfold bf_rest; rewrite app_length; lia).
  specialize (R Hf). destruct (line_of (bf_size b) (bf_rest b)) as [[[l e] t]|].
  - destruct R as [b' [R1 [R2 [R3 R4]]]]. rewrite R1. destruct (e && (len l =? 0)); [eauto 6|]. cbv zeta. destruct (len (trim_crlf l) =? 0).
    + exists b'. split; [do 4 f_equal; lia|auto].
    + destruct (if count =? 0 then parse_first_line (trim_crlf l) s else parse_header (trim_crlf l) s) as [s1 [u|er| |]]; [|eauto|eauto|eauto].
      specialize (IH b' (count + 1) (offset + len l) (buffer ++ l) s1 R3). rewrite R2, R4 in IH. exact IH.
  - destruct R as [b' [e R1]]. rewrite R1. eauto.
Qed.
Lemma parse_args_res s : (exists a, parse_args s = Ok a) \/ parse_args s = Panic.
Proof.
  unfold parse_args. destruct (cut 59 s) as [[a t]|]; [|left; eauto]. unfold parse_args_pairs.
  destruct (parse_pairs_cases (parse_list (trim_space t)) new_args) as [[-> _]|[[m ->] _]]; eauto.
Qed.
Lemma new_request_res s : (exists r, new_request s = Ok r) \/ new_request s = Panic.
Proof.
  unfold new_request. destruct (new_request_total s) as [[[[[rest ty] us] ho] po] ->]. cbn [bind]. destruct rest as [|rc rt]; [left; eexists; reflexivity|].
  destruct (parse_args_res (rc :: rt)) as [[a ->] | ->]; cbn [bind]; eauto.
Qed.
Lemma new_user_res s : (exists r, new_user s = Ok r) \/ new_user s = Panic.
Proof.
  unfold new_user. destruct (user_loop_total s) as [[[[[[rest ty] na] us] ho] po] ->]. cbn [bind]. destruct rest as [|rc rt]; [left; eexists; reflexivity|].
  destruct (parse_args_res (rc :: rt)) as [[a ->] | ->]; cbn [bind]; eauto.
Qed.
Lemma new_via_res s : (exists r, new_via s = Ok r) \/ new_via s = Panic.
Proof.
  unfold new_via. destruct (via_total (S (length s)) s FBase [] [] [] ltac:(lia)) as [[[[rest ty] us] ho] ->]. cbn [bind]. destruct rest as [|rc rt]; [left; eexists; reflexivity|].
  destruct (parse_args_res (rc :: rt)) as [[a ->] | ->]; cbn [bind]; eauto.
Qed.
Lemma parse_first_line_fuel l s : snd (parse_first_line l s) <> OutOfFuel.
Proof.
  unfold parse_first_line. destruct (split3 l) as [|a [|b [|c [|]]]]; try discriminate. destruct (has_prefix a (str "SIP")).
  - destruct (get_version a); try discriminate. destruct (atoi b); discriminate.
  - destruct (get_method a); try discriminate. destruct (new_request_res b) as [[r ->] | ->]; [|discriminate]. destruct (get_version c); discriminate.
Qed.
Lemma parse_header_fuel l s : snd (parse_header l s) = Ok tt \/ snd (parse_header l s) = Panic.
Proof.
  unfold parse_header. destruct l as [|c l]; [auto|]. destruct ((c =? 9) || (c =? 32)).
  - destruct (append_last _ _); [|auto]. destruct (s_headers s); auto.
  - destruct (cut 58 (c :: l)) as [[a b]|]; [|auto]. destruct (s_headers s); auto.
Qed.
Lemma lines_pure_total fuel : forall size r count offset buffer s, (length r + 1 < fuel)%nat -> snd (lines_pure fuel size r count offset buffer s) <> OutOfFuel.
Proof.
  induction fuel as [|f IH]; intros size r count offset buffer s Hf; [lia|]. cbn [lines_pure]. destruct (line_of size r) as [[[l e] t]|] eqn:E; [|discriminate].
  apply line_of_split in E. destruct E as [-> E]. destruct (e && (len l =? 0)) eqn:E1; [discriminate|]. destruct (len (trim_crlf l) =? 0) eqn:E2; [discriminate|].
  assert (Hl : l <> []) by (intros ->; discriminate). assert (Hlen : (length t + 1 < f)%nat) by (rewrite app_length in Hf; destruct l; [congruence|]; cbn [length] in Hf; lia).
  destruct (count =? 0).
  - pose proof (parse_first_line_fuel (trim_crlf l) s) as P. destruct (parse_first_line (trim_crlf l) s) as [s1 [u|er| |]]; cbn [snd] in *; try discriminate; [now apply IH|congruence].
  - pose proof (parse_header_fuel (trim_crlf l) s) as P. destruct (parse_header (trim_crlf l) s) as [s1 [u|er| |]]; cbn [snd] in *; try discriminate; [now apply IH|destruct P; discriminate].
Qed.
(** What was read is what was there. *)
Lemma lines_pure_consumed fuel : forall size r count offset buffer s s' o bu t, lines_pure fuel size r count offset buffer s = (s', Ok (o, bu, t)) ->
  len buffer = offset -> exists used eol, bu = buffer ++ used ++ eol /\ r = used ++ eol ++ t /\ o = offset + len used /\ trim_crlf eol = [].
Proof.
  induction fuel as [|f IH]; intros size r count offset buffer s s' o bu t; cbn [lines_pure]; [discriminate|]. intros H Hlen. destruct (line_of size r) as [[[l e] t0]|] eqn:E; [|discriminate].
  apply line_of_split in E. destruct E as [-> E]. destruct (e && (len l =? 0)) eqn:E1.
  - injection H as <- <- <- <-. exists [], []. apply andb_prop in E1. destruct E1 as [_ E1]. assert (l = []) by (apply len_zero; lia). subst l. rewrite app_nil_r. change (len (@nil Z)) with 0. auto with zarith.
  - destruct (len (trim_crlf l) =? 0) eqn:E2.
    + injection H as <- <- <- <-. exists [], l. change (len (@nil Z)) with 0. split; [reflexivity|]. split; [reflexivity|]. split; [lia|]. apply len_zero. lia.
    + destruct (if count =? 0 then parse_first_line (trim_crlf l) s else parse_header (trim_crlf l) s) as [s1 [u|er| |]]; try discriminate.
      apply IH in H; [|rewrite len_app; lia]. destruct H as [used [eol [-> [-> [-> He]]]]]. exists (l ++ used), eol. rewrite len_app, <- !app_assoc. repeat split; auto. lia.
Qed.

(** * Parse as a whole *)
Lemma fill_header_res s : (exists x, fill_header s = (x, Ok tt)) \/ fill_header s = (s, Panic).
Proof.
  unfold fill_header, get_sip_contact, get_sip_cseq, get_sip_from, get_sip_to, get_sip_via. destruct (new_user_res (get_first (s_headers s) (str "contact"))) as [[c ->] | ->]; [|auto].
  destruct (new_cseq_total (get_first (s_headers s) (str "cseq"))) as [q ->].
  destruct (new_user_res (get_first (s_headers s) (str "from"))) as [[f ->] | ->]; [|auto].
  destruct (new_user_res (get_first (s_headers s) (str "to"))) as [[t ->] | ->]; [|auto].
  destruct (new_via_res (get_first (s_headers s) (str "via"))) as [[v ->] | ->]; eauto.
Qed.
Lemma fill_body_spec h n b : rinv b -> match get_content_length h with
  | Ok size => exists b' d, fill_body h n b = (b', Ok d) /\ bf_rest b = d ++ bf_rest b' /\ (size - n <= 0 -> d = []) /\ (bf_rest b' = [] \/ size - n <= len d)
  | _ => fill_body h n b = (b, Err EOther)
  end.
Proof.
  intros Hb. unfold fill_body. destruct (get_content_length h) as [size|e| |]; try reflexivity.
  destruct (body_loop_spec (S (length (bf_rest b))) (size - n) [] b Hb ltac:(lia)) as [b' [d [E1 [E2 [E3 E4]]]]]. exists b', d. auto.
Qed.
(** Everything about Parse that does not depend on the blocks the source delivers. *)
Inductive outcome := OOk (x : sip) (offset : Z) (buffer left : bytes) (need : Z) | OErr (x : sip) | OPanic (x : sip).
Definition parse_outcome (size : Z) (r : bytes) (s : sip) : outcome :=
  match lines_pure (S (S (length r))) size r 0 0 [] s with
  | (s', Ok (o, bu, t)) =>
      match fill_header s' with
      | (x, Ok _) => match get_content_length (s_headers x) with
                     | Ok n => OOk x o bu t (n - (len bu - o))
                     | _ => OErr x
                     end
      | (x, _) => OPanic x
      end
  | (s', Err _) => OErr s'
  | (s', _) => OPanic s'
  end.
Lemma sip_parse_outcome b s : rinv b ->
  match parse_outcome (bf_size b) (bf_rest b) s with
  | OOk x o bu t need => exists b' d, sip_parse b s = (b', (with_layer (take (bu ++ d) o) (drop (bu ++ d) o) x, Ok tt)) /\
      t = d ++ bf_rest b' /\ (need <= 0 -> d = []) /\ (bf_rest b' = [] \/ need <= len d)
  | OErr x => exists b' e, sip_parse b s = (b', (x, Err e))
  | OPanic x => exists b', sip_parse b s = (b', (x, Panic))
  end.
Proof.
  intros Hb. unfold parse_outcome, sip_parse.
  pose proof (parse_lines_pure (S (S (length (bf_rest b)))) b 0 0 [] s Hb) as P. pose proof (lines_pure_total (S (S (length (bf_rest b)))) (bf_size b) (bf_rest b) 0 0 [] s ltac:(lia)) as T.
  destruct (lines_pure (S (S (length (bf_rest b)))) (bf_size b) (bf_rest b) 0 0 [] s) as [s' [[[o bu] t]|e| |]].
  - destruct P as [b1 [P1 [P2 [P3 P4]]]]. rewrite P1. destruct (fill_header_res s') as [[x ->] | ->]; [|eauto].
    pose proof (fill_body_spec (s_headers x) (len bu - o) b1 P3) as F. destruct (get_content_length (s_headers x)) as [n|e| |]; [|rewrite F; eauto..].
    destruct F as [b' [d [F1 [F2 [F3 F4]]]]]. rewrite F1. exists b', d. rewrite P2 in F2. auto.
  - destruct P as [b1 [e' P1]]. rewrite P1. eauto.
  - destruct P as [b1 P1]. rewrite P1. eauto.
  - cbn [snd] in T. congruence.
Qed.
Lemma parse_outcome_consumed size r s x o bu t need : parse_outcome size r s = OOk x o bu t need ->
  exists used eol, bu = used ++ eol /\ r = used ++ eol ++ t /\ o = len used /\ trim_crlf eol = [].
Proof.
  unfold parse_outcome. destruct (lines_pure (S (S (length r))) size r 0 0 [] s) as [s' [[[o' bu'] t']|e| |]] eqn:E; try discriminate.
  destruct (fill_header s') as [y [u|e| |]]; try discriminate. destruct (get_content_length (s_headers y)); try discriminate. intros H. injection H as <- <- <- <- <-.
  apply lines_pure_consumed in E; [|reflexivity]. destruct E as [used [eol [-> [-> [-> E]]]]]. exists used, eol. auto.
Qed.
