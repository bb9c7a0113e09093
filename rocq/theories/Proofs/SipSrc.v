(** Proofs about SIP Parse over any io.Reader. *)
From Coq Require Import String.
From Verif Require Import Base.Go Base.GoFacts Base.IO Base.Text Model.Sip Model.SipSrc Spec.Sip Proofs.Text Proofs.Sip Proofs.SipMsg Proofs.SipRead.
Import ListNotations. Local Open Scope list_scope. Local Open Scope Z_scope.
Local Ltac Zify.zify_post_hook ::= Z.div_mod_to_equations.

(** * One Read of the source *)
Lemma take_drop_len (c : bytes) n : 0 < n -> len c <=? n = false -> take c n <> [] /\ (length (drop c n) + 1 <= length c)%nat /\ c = take c n ++ drop c n /\ drop c n <> [].
Proof.
  intros Hn H. apply Z.leb_gt in H. unfold take, drop, len in *. repeat split.
  - intros C. apply (f_equal (@length Z)) in C. rewrite firstn_length in C. cbn [length] in C. lia.
  - rewrite skipn_length. lia.
  - symmetry. apply firstn_skipn.
  - intros C. apply (f_equal (@length Z)) in C. rewrite skipn_length in C. cbn [length] in C. lia.
Qed.
Lemma src_get_spec n s : 0 < n -> let '(s', (d, e)) := src_get n s in
  concat (c_chunks s) = d ++ concat (c_chunks s') /\ c_err s' = c_err s /\ c_with s' = c_with s /\ len d <= n /\
  (length (c_chunks s') <= length (c_chunks s))%nat /\
  (e = None -> d <> [] \/ (length (c_chunks s') < length (c_chunks s))%nat) /\ (forall x, e = Some x -> x = c_err s /\ c_chunks s' = []).
Proof.
  intros Hn. unfold src_get. destruct (c_chunks s) as [|c cs] eqn:E.
  - rewrite E. cbn [concat app]. change (len (@nil Z)) with 0. repeat split; try lia; try discriminate; congruence.
  - destruct (len c <=? n) eqn:L; cbn [c_chunks c_err c_with concat length].
    + apply Z.leb_le in L. repeat split; try lia.
      * destruct cs; [|discriminate]. destruct (c_with s); [congruence|discriminate].
      * destruct cs; [reflexivity|discriminate].
    + destruct (take_drop_len c n Hn L) as (H1 & H2 & H3 & _). repeat split; try lia; try discriminate.
      * rewrite H3 at 1. rewrite app_assoc. reflexivity.
      * rewrite len_take by lia. lia.
      * intros _. left. exact H1.
Qed.
(** * fill and ReadSlice *)
Definition tame (b : gbuf) : Prop := 0 < gb_size b /\ len (gb_buf b) <= gb_size b.
Lemma fill_spec k : forall b, tame b -> len (gb_buf b) < gb_size b -> tame (fill k b) /\ gb_size (fill k b) = gb_size b /\ gb_rest (fill k b) = gb_rest b /\
  (length (c_chunks (gb_src (fill k b))) <= length (c_chunks (gb_src b)))%nat /\
  c_err (gb_src (fill k b)) = c_err (gb_src b) /\ c_with (gb_src (fill k b)) = c_with (gb_src b) /\
  (exists d, gb_buf (fill k b) = gb_buf b ++ d) /\
  (gb_err (fill k b) = None -> (length (concat (c_chunks (gb_src (fill k b)))) < length (concat (c_chunks (gb_src b))))%nat).
Proof.
  induction k as [|k IH]; intros b [T1 T2] HL; cbn [fill].
  - cbn [gb_size gb_buf gb_src gb_err]. repeat split; auto; [exists []; rewrite app_nil_r; reflexivity|discriminate].
  - pose proof (src_get_spec (gb_size b - len (gb_buf b)) (gb_src b) ltac:(lia)) as S. destruct (src_get (gb_size b - len (gb_buf b)) (gb_src b)) as [s' [d [e|]]].
    + destruct S as (S1 & S2 & S3 & S4 & S5 & _). cbn [gb_size gb_buf gb_src gb_err]. unfold gb_rest. cbn [gb_buf gb_src].
      split; [split; cbn [gb_size gb_buf]; [lia|rewrite len_app; lia]|]. split; [reflexivity|]. split; [rewrite S1, app_assoc; reflexivity|]. repeat split; auto; [eauto|discriminate].
    + destruct S as (S1 & S2 & S3 & S4 & S5 & S6 & _). destruct d as [|x d].
      * destruct (IH (mkG (gb_buf b) None s' (gb_size b))) as (I1 & I2 & I3 & I4 & I5 & I6 & I7 & I8); [split; assumption|assumption|].
        cbn [gb_size gb_buf gb_src gb_err] in *. unfold gb_rest in I3 at 2. cbn [gb_buf gb_src] in I3. unfold gb_rest at 2. cbn [app] in S1. rewrite S1. repeat split; auto; try congruence; try lia; apply I1.
      * cbn [gb_size gb_buf gb_src gb_err]. unfold gb_rest. cbn [gb_buf gb_src].
        split; [split; cbn [gb_size gb_buf]; [lia|rewrite len_app; lia]|]. split; [reflexivity|]. split; [rewrite S1, app_assoc; reflexivity|]. repeat split; auto; [eauto|]. intros _. rewrite S1, app_length. cbn [length]. lia.
Qed.
Definition slice_meas (b : gbuf) : nat := match gb_err b with Some _ => 0 | None => S (length (concat (c_chunks (gb_src b)))) end.
Lemma gread_slice_spec fuel : forall b, tame b -> (slice_meas b < fuel)%nat ->
  exists b' line e, gread_slice fuel b = (b', Ok (line, e)) /\ tame b' /\ gb_size b' = gb_size b /\ gb_rest b = line ++ gb_rest b' /\
    (length (c_chunks (gb_src b')) <= length (c_chunks (gb_src b)))%nat /\ (e = None -> line <> []).
Proof.
  induction fuel as [|f IH]; intros b [T1 T2] HM; [lia|]. cbn [gread_slice]. destruct (cut 10 (gb_buf b)) as [[l r]|] eqn:E.
  - apply cut_some in E. destruct E as [E _]. eexists _, _, _. split; [reflexivity|]. cbn [gb_size gb_buf gb_src]. unfold gb_rest. cbn [gb_buf gb_src]. rewrite E in T2. rewrite len_app, len_cons in T2. pose proof (len_nonneg l).
    split; [split; cbn [gb_size gb_buf]; lia|]. split; [reflexivity|]. split; [rewrite E, <- !app_assoc; reflexivity|]. split; [lia|]. intros _. destruct l; discriminate.
  - destruct (gb_err b) as [e|] eqn:Ee.
    + eexists _, _, _. split; [reflexivity|]. unfold gb_rest. cbn [gb_size gb_buf gb_src app]. split; [split; cbn [gb_size gb_buf]; [lia|change (len (@nil Z)) with 0; lia]|]. repeat split; auto; discriminate.
    + destruct (len (gb_buf b) >=? gb_size b) eqn:F.
      * eexists _, _, _. split; [reflexivity|]. unfold gb_rest. cbn [gb_size gb_buf gb_src app]. split; [split; cbn [gb_size gb_buf]; [lia|change (len (@nil Z)) with 0; lia]|]. repeat split; auto; discriminate.
      * assert (L : len (gb_buf b) < gb_size b) by (rewrite Z.geb_leb in F; apply Z.leb_gt in F; exact F).
        destruct (fill_spec 100 b (conj T1 T2) L) as (F1 & F2 & F3 & F4 & _ & _ & _ & F8).
        destruct (IH (fill 100 b) F1) as (b' & line & e & I1 & I2 & I3 & I4 & I5 & I6).
        { unfold slice_meas in *. rewrite Ee in HM. destruct (gb_err (fill 100 b)); [lia|]. specialize (F8 eq_refl). lia. }
        exists b', line, e. rewrite F3 in I4. repeat split; auto; try lia; try congruence; apply I2.
Qed.
Lemma gread_slice_fuel f1 : forall f2 b, tame b -> (slice_meas b < f1)%nat -> (slice_meas b < f2)%nat -> gread_slice f1 b = gread_slice f2 b.
Proof.
  induction f1 as [|f1 IH]; intros [|f2] b T H1 H2; try lia. cbn [gread_slice]. destruct (cut 10 (gb_buf b)) as [[l r]|]; [reflexivity|]. destruct (gb_err b) as [e|] eqn:Ee; [reflexivity|].
  destruct (len (gb_buf b) >=? gb_size b) eqn:F; [reflexivity|]. rewrite Z.geb_leb in F; apply Z.leb_gt in F.
  destruct (fill_spec 100 b T F) as (F1 & _ & _ & _ & _ & _ & _ & F8). unfold slice_meas in H1, H2. rewrite Ee in H1, H2.
  apply IH; [exact F1|..]; unfold slice_meas; (destruct (gb_err (fill 100 b)); [lia|]; specialize (F8 eq_refl); lia).
Qed.
Lemma gfuel_slice b : (slice_meas b < gfuel b)%nat.
Proof. unfold slice_meas, gfuel, gb_rest. rewrite app_length. destruct (gb_err b); lia. Qed.
(** * Read *)
Definition body_meas (b : gbuf) : nat := (length (gb_rest b) + length (c_chunks (gb_src b)))%nat.
Lemma gread_spec n b : 0 < n -> tame b -> let '(b', (d, e)) := gread n b in
  tame b' /\ gb_size b' = gb_size b /\ gb_rest b = d ++ gb_rest b' /\ (e = None -> (body_meas b' < body_meas b)%nat).
Proof.
  intros Hn [T1 T2]. assert (Z0 : forall s, tame (mkG [] None s (gb_size b))) by (intros s; split; cbn [gb_size gb_buf]; [lia|change (len (@nil Z)) with 0; lia]).
  unfold gread, body_meas, gb_rest. destruct (gb_buf b) as [|x d] eqn:E.
  - destruct (gb_err b) as [e|].
    + cbn [gb_size gb_buf gb_src app]. repeat split; auto; discriminate.
    + destruct (n >=? gb_size b).
      * pose proof (src_get_spec n (gb_src b) Hn) as S. destruct (src_get n (gb_src b)) as [s' [d e]]. destruct S as (S1 & _ & _ & _ & S5 & S6 & _). cbn [gb_size gb_buf gb_src app].
        split; [apply Z0|]. split; [reflexivity|]. split; [exact S1|]. intros He. rewrite S1, app_length. destruct (S6 He) as [D|D]; [destruct d; [congruence|]; cbn [length]; lia|lia].
      * pose proof (src_get_spec (gb_size b) (gb_src b) T1) as S. destruct (src_get (gb_size b) (gb_src b)) as [s' [[|y d] e]]; destruct S as (S1 & _ & _ & S4 & S5 & S6 & _); cbn [gb_size gb_buf gb_src app].
        -- split; [apply Z0|]. split; [reflexivity|]. split; [exact S1|]. intros He. rewrite S1. cbn [app]. destruct (S6 He) as [D|D]; [congruence|lia].
        -- assert (TD : take (y :: d) n ++ drop (y :: d) n = y :: d) by (unfold take, drop; apply firstn_skipn).
           split; [split; cbn [gb_size gb_buf]; [lia|]; unfold drop, len in *; rewrite skipn_length; lia|]. split; [reflexivity|]. split; [rewrite S1, app_assoc, TD; reflexivity|].
           intros _. rewrite S1, !app_length. unfold drop. rewrite skipn_length. cbn [length]. lia.
  - assert (TD : take (x :: d) n ++ drop (x :: d) n = x :: d) by (unfold take, drop; apply firstn_skipn).
    cbn [gb_size gb_buf gb_src]. split; [split; cbn [gb_size gb_buf]; [lia|]; unfold drop, len in *; rewrite skipn_length; lia|]. split; [reflexivity|]. split; [rewrite app_assoc, TD; reflexivity|].
    intros _. rewrite !app_length. unfold drop. rewrite skipn_length. cbn [length]. lia.
Qed.
(** * Simulation of one reader by another, as far as Parse succeeds or panics *)
Definition bad (e : option err) : Prop := match e with Some EEof | None => False | Some _ => True end.
Section Sim.
Variable R : gbuf -> gbuf -> Prop.
Hypothesis HS : forall b1 b2 b1' line e, R b1 b2 -> tame b1 -> tame b2 -> gread_slice (gfuel b1) b1 = (b1', Ok (line, e)) -> ~ bad e ->
  exists b2', gread_slice (gfuel b2) b2 = (b2', Ok (line, e)) /\ R b1' b2'.
Hypothesis HB : forall b1 b2 b1' size body, R b1 b2 -> tame b1 -> tame b2 -> gbody_loop (gfuel b1) size [] b1 = (b1', Ok body) ->
  exists b2', gbody_loop (gfuel b2) size [] b2 = (b2', Ok body).
Lemma lines_sim f1 : forall f2 b1 b2 count offset buffer s b1' s' r, R b1 b2 -> tame b1 -> tame b2 ->
  (length (gb_rest b1) < f1)%nat -> (length (gb_rest b2) < f2)%nat ->
  gparse_lines f1 b1 count offset buffer s = (b1', (s', r)) -> (forall e, r <> Err e) ->
  exists b2', gparse_lines f2 b2 count offset buffer s = (b2', (s', r)) /\ R b1' b2' /\ tame b1' /\ tame b2'.
Proof.
  induction f1 as [|f1 IH]; intros [|f2] b1 b2 count offset buffer s b1' s' r HR T1 T2 F1 F2 E Hr; try lia. cbn [gparse_lines] in *.
  destruct (gread_slice_spec (gfuel b1) b1 T1 (gfuel_slice b1)) as (c1 & line & e & E1 & U1 & V1 & W1 & _ & X1). rewrite E1 in E.
  assert (NB : ~ bad e) by (intros B; destruct e as [[]|]; try contradiction; injection E as _ _ <-; eapply Hr; reflexivity).
  destruct (HS b1 b2 c1 line e HR T1 T2 E1 NB) as (c2 & E2 & HR').
  destruct (gread_slice_spec (gfuel b2) b2 T2 (gfuel_slice b2)) as (c2' & line' & e' & E2' & U2 & V2 & W2 & _ & X2). rewrite E2 in E2'. injection E2' as <- <- <-. rewrite E2.
  assert (GO : line <> [] -> forall k1 k2,
    k1 = (if len (trim_crlf line) =? 0 then (c1, (s, Ok (offset + len line - len line, buffer ++ line))) else
            match (if count =? 0 then parse_first_line (trim_crlf line) s else parse_header (trim_crlf line) s) with
            | (s', Ok _) => gparse_lines f1 c1 (count + 1) (offset + len line) (buffer ++ line) s'
            | (s', Err e) => (c1, (s', Err e))
            | (s', Panic) => (c1, (s', Panic))
            | (s', OutOfFuel) => (c1, (s', OutOfFuel))
            end) ->
    k2 = (if len (trim_crlf line) =? 0 then (c2, (s, Ok (offset + len line - len line, buffer ++ line))) else
            match (if count =? 0 then parse_first_line (trim_crlf line) s else parse_header (trim_crlf line) s) with
            | (s', Ok _) => gparse_lines f2 c2 (count + 1) (offset + len line) (buffer ++ line) s'
            | (s', Err e) => (c2, (s', Err e))
            | (s', Panic) => (c2, (s', Panic))
            | (s', OutOfFuel) => (c2, (s', OutOfFuel))
            end) ->
    k1 = (b1', (s', r)) -> exists b2', k2 = (b2', (s', r)) /\ R b1' b2' /\ tame b1' /\ tame b2').
  { intros Hl k1 k2 -> -> K. destruct (len (trim_crlf line) =? 0); [injection K as <- <- <-; eauto|].
    destruct (if count =? 0 then parse_first_line (trim_crlf line) s else parse_header (trim_crlf line) s) as [s1 [u|x| |]]; try (injection K as <- <- <-; eauto; fail).
    apply (f_equal (@length Z)) in W1, W2. rewrite app_length in W1, W2. assert (0 < length line)%nat by (destruct line; [congruence|cbn [length]; lia]).
    eapply IH; try eassumption; lia. }
  cbv zeta in E |- *. destruct e as [[]|]; try (elim NB; exact I).
  - destruct (len line =? 0) eqn:L0; [injection E as <- <- <-; eauto|]. eapply GO; [|reflexivity|reflexivity|exact E]. intros ->. discriminate.
  - eapply GO; [apply X1; reflexivity|reflexivity|reflexivity|exact E].
Qed.
Lemma parse_sim b1 b2 s s' r : R b1 b2 -> tame b1 -> tame b2 -> snd (gparse b1 s) = (s', r) -> (forall e, r <> Err e) -> snd (gparse b2 s) = (s', r).
Proof.
  intros HR T1 T2 E Hr. unfold gparse in *.
  assert (G : forall b, (length (gb_rest b) < gfuel b)%nat) by (intros b; unfold gfuel; lia).
  destruct (gparse_lines (gfuel b1) b1 0 0 [] s) as [c1 [s1 r1]] eqn:E1.
  assert (N1 : forall e, r1 <> Err e) by (intros e ->; cbn [snd] in E; injection E as _ <-; eapply Hr; reflexivity).
  destruct (lines_sim (gfuel b1) (gfuel b2) b1 b2 0 0 [] s c1 s1 r1 HR T1 T2 (G b1) (G b2) E1 N1) as (c2 & -> & HR2 & U1 & U2).
  destruct r1 as [[offset buffer]|e| |]; try exact E. destruct (fill_header s1) as [s2 [u|e| |]]; try exact E.
  unfold gfill_body in *. destruct (get_content_length (s_headers s2)) as [size|e| |]; try exact E.
  destruct (gbody_loop (gfuel c1) (size - (len buffer - offset)) [] c1) as [d1 [body|e| |]] eqn:EB.
  - destruct (HB _ _ _ _ _ HR2 U1 U2 EB) as (d2 & ->). exact E.
  - cbn [snd] in E. injection E as _ <-. elim (Hr e). reflexivity.
  - exfalso. revert EB. clear. generalize (gfuel c1) as f. generalize (size - (len buffer - offset)) (@nil Z) c1. intros z0 d0 c0 f. revert z0 d0 c0. induction f as [|f IH]; intros z d c; cbn [gbody_loop]; (destruct (z <=? 0); [discriminate|]); [discriminate|].
    destruct (gread 4096 c) as [c' [x [[]|]]]; try discriminate. apply IH.
  - exfalso. revert EB. assert (F : (body_meas c1 < gfuel c1)%nat) by (unfold body_meas, gfuel; lia). revert F U1. clear. generalize (gfuel c1) as f. generalize (size - (len buffer - offset)) (@nil Z) c1. intros z0 d0 c0 f. revert z0 d0 c0. induction f as [|f IH]; intros z d c F T; cbn [gbody_loop]; (destruct (z <=? 0); [discriminate|]); [lia|].
    pose proof (gread_spec 4096 c ltac:(lia) T) as S. destruct (gread 4096 c) as [c' [x e]]. destruct S as (S1 & _ & _ & S4). destruct e as [[]|]; try discriminate. specialize (S4 eq_refl). apply IH; [lia|exact S1].
Qed.
End Sim.
(** * A source that fails, and one that goes on *)
Definition goes_on (more : list bytes) (e2 : err) (b1 b2 : gbuf) : Prop :=
  gb_buf b2 = gb_buf b1 /\ gb_size b2 = gb_size b1 /\ c_err (gb_src b1) <> EEof /\
  ((gb_err b1 = None /\ gb_err b2 = None /\ gb_src b2 = mkSrc (c_chunks (gb_src b1) ++ more) e2 false) \/ bad (gb_err b1)).
Lemma not_eof_bad e : e <> EEof -> bad (Some e).
Proof. intros H. destruct e; try exact I. elim H. reflexivity. Qed.
(** One Read of each: the first fails, or both deliver the same. *)
Lemma get_on more e2 n s1 s2 : 0 < n -> c_err s1 <> EEof -> s2 = mkSrc (c_chunks s1 ++ more) e2 false ->
  let '(t1, (d1, x1)) := src_get n s1 in
  (d1 = [] /\ bad x1) \/
  (exists t2, src_get n s2 = (t2, (d1, None)) /\ c_err t1 <> EEof /\ (bad x1 \/ (x1 = None /\ t2 = mkSrc (c_chunks t1 ++ more) e2 false))).
Proof.
  intros Hn He ->. destruct s1 as [cs e w]. cbn [c_chunks c_err] in *. unfold src_get. cbn [c_chunks c_err c_with]. destruct cs as [|c cs]; [left; split; [reflexivity|apply not_eof_bad, He]|].
  cbn [app]. destruct (len c <=? n) eqn:L.
  - right. exists (mkSrc (cs ++ more) e2 false). split; [destruct (cs ++ more); reflexivity|]. split; [exact He|]. destruct cs as [|c' cs]; cbn [app]; [destruct w; [left; apply not_eof_bad, He|]|]; right; split; reflexivity.
  - right. eexists. split; [reflexivity|]. split; [exact He|]. right. split; reflexivity.
Qed.
Lemma fill_on more e2 k : forall b1 b2, goes_on more e2 b1 b2 -> gb_err b1 = None -> len (gb_buf b1) < gb_size b1 ->
  (bad (gb_err (fill k b1)) /\ gb_buf (fill k b1) = gb_buf b1) \/ goes_on more e2 (fill k b1) (fill k b2).
Proof.
  induction k as [|k IH]; intros b1 b2 (H1 & H2 & H3 & H4) Hn HL; [left; split; [exact I|reflexivity]|]. destruct H4 as [(_ & H5 & H6)|H4]; [|rewrite Hn in H4; contradiction].
  cbn [fill]. rewrite H1, H2. pose proof (get_on more e2 (gb_size b1 - len (gb_buf b1)) (gb_src b1) (gb_src b2) ltac:(lia) H3 H6) as G.
  destruct (src_get (gb_size b1 - len (gb_buf b1)) (gb_src b1)) as [t1 [d1 x1]]. destruct G as [[-> B]|(t2 & -> & He & [B|[-> ->]])].
  - destruct x1 as [x1|]; [|contradiction]. left. cbn [gb_err gb_buf]. rewrite app_nil_r. split; [exact B|reflexivity].
  - destruct x1 as [x1|]; [|contradiction]. destruct d1 as [|y d1].
    + left. cbn [gb_err gb_buf]. rewrite app_nil_r. split; [exact B|reflexivity].
    + right. split; [reflexivity|]. split; [reflexivity|]. split; [exact He|]. right. exact B.
  - destruct d1 as [|y d1].
    + apply (IH (mkG (gb_buf b1) None t1 (gb_size b1))); [|reflexivity|exact HL]. split; [reflexivity|]. split; [reflexivity|]. split; [exact He|]. left. repeat split.
    + right. split; [reflexivity|]. split; [reflexivity|]. split; [exact He|]. left. repeat split.
Qed.
Local Opaque fill.
Lemma slice_on more e2 f1 : forall f2 b1 b2 b1' line e, goes_on more e2 b1 b2 -> tame b1 -> tame b2 -> (slice_meas b1 < f1)%nat -> (slice_meas b2 < f2)%nat ->
  gread_slice f1 b1 = (b1', Ok (line, e)) -> ~ bad e -> exists b2', gread_slice f2 b2 = (b2', Ok (line, e)) /\ goes_on more e2 b1' b2'.
Proof.
  induction f1 as [|f1 IH]; intros [|f2] b1 b2 b1' line e G T1 T2 F1 F2 E NB; try lia. pose proof G as (H1 & H2 & H3 & H4). cbn [gread_slice] in *. rewrite H1.
  destruct (cut 10 (gb_buf b1)) as [[l rest]|] eqn:C.
  - injection E as <- <- <-. eexists. split; [reflexivity|]. split; [reflexivity|]. split; [exact H2|]. split; [exact H3|]. exact H4.
  - destruct H4 as [(H4 & H5 & H6)|H4]; [|destruct (gb_err b1) as [x|]; [|contradiction]; injection E as <- <- <-; contradiction].
    rewrite H4 in E. rewrite H5, H2. destruct (len (gb_buf b1) >=? gb_size b1) eqn:L; [injection E as <- <- <-; elim NB; exact I|].
    rewrite Z.geb_leb in L. apply Z.leb_gt in L. assert (L2 : len (gb_buf b2) < gb_size b2) by congruence.
    destruct (fill_spec 100 b1 T1 L) as (P1 & _ & _ & _ & _ & _ & _ & P8). destruct (fill_spec 100 b2 T2 L2) as (Q1 & _ & _ & _ & _ & _ & _ & Q8).
    unfold slice_meas in F1, F2. rewrite H4 in F1. rewrite H5 in F2.
    assert (M1 : (slice_meas (fill 100 b1) < f1)%nat) by (unfold slice_meas; destruct (gb_err (fill 100 b1)); [lia|]; specialize (P8 eq_refl); lia).
    assert (M2 : (slice_meas (fill 100 b2) < f2)%nat) by (unfold slice_meas; destruct (gb_err (fill 100 b2)); [lia|]; specialize (Q8 eq_refl); lia).
    destruct (fill_on more e2 100 b1 b2 G H4 L) as [[B1 B2]|G'].
    + exfalso. destruct f1 as [|f1]; [unfold slice_meas in M1; lia|]. cbn [gread_slice] in E. rewrite B2, C in E. destruct (gb_err (fill 100 b1)) as [x|]; [|contradiction]. injection E as <- <- <-. contradiction.
    + eapply IH; [exact G'|exact P1|exact Q1|exact M1|exact M2|exact E|exact NB].
Qed.
Lemma read_on more e2 n b1 b2 : 0 < n -> goes_on more e2 b1 b2 -> tame b1 -> tame b2 -> let '(b1', (d, e)) := gread n b1 in
  bad e \/ (e = None /\ exists b2', gread n b2 = (b2', (d, None)) /\ goes_on more e2 b1' b2').
Proof.
  intros Hn G [T1 T1'] [T2 T2']. pose proof G as (H1 & H2 & H3 & H4). unfold gread. rewrite H1, H2. destruct (gb_buf b1) as [|x d] eqn:B.
  - destruct H4 as [(H4 & H5 & H6)|H4]; [|destruct (gb_err b1) as [x|]; [|contradiction]; left; exact H4]. rewrite H4, H5. destruct (n >=? gb_size b1).
    + pose proof (get_on more e2 n (gb_src b1) (gb_src b2) Hn H3 H6) as K. destruct (src_get n (gb_src b1)) as [t1 [d1 x1]]. destruct K as [[-> K]|(t2 & -> & He & [K|[-> ->]])]; [left; exact K|left; exact K|].
      right. split; [reflexivity|]. eexists. split; [reflexivity|]. split; [reflexivity|]. split; [reflexivity|]. split; [exact He|]. left. repeat split.
    + pose proof (get_on more e2 (gb_size b1) (gb_src b1) (gb_src b2) T1 H3 H6) as K. destruct (src_get (gb_size b1) (gb_src b1)) as [t1 [[|y d1] x1]]; (destruct K as [[K0 K]|(t2 & -> & He & [K|[-> ->]])]; [try discriminate; left; exact K|..]).
      * left. exact K.
      * right. split; [reflexivity|]. eexists. split; [reflexivity|]. split; [reflexivity|]. split; [reflexivity|]. split; [exact He|]. left. repeat split.
      * right. split; [reflexivity|]. eexists. split; [reflexivity|]. split; [reflexivity|]. split; [reflexivity|]. split; [exact He|]. right. exact K.
      * right. split; [reflexivity|]. eexists. split; [reflexivity|]. split; [reflexivity|]. split; [reflexivity|]. split; [exact He|]. left. repeat split.
  - right. split; [reflexivity|]. eexists. split; [reflexivity|]. split; [reflexivity|]. split; [reflexivity|]. split; [exact H3|]. exact H4.
Qed.
Lemma body_on more e2 f1 : forall f2 size body b1 b2 b1' x, goes_on more e2 b1 b2 -> tame b1 -> tame b2 -> (body_meas b1 < f1)%nat -> (body_meas b2 < f2)%nat ->
  gbody_loop f1 size body b1 = (b1', Ok x) -> exists b2', gbody_loop f2 size body b2 = (b2', Ok x).
Proof.
  induction f1 as [|f1 IH]; intros [|f2] size body b1 b2 b1' x G T1 T2 F1 F2 E; try lia. cbn [gbody_loop] in *. destruct (size <=? 0); [injection E as <- <-; eauto|].
  pose proof (read_on more e2 4096 b1 b2 ltac:(lia) G T1 T2) as K. pose proof (gread_spec 4096 b1 ltac:(lia) T1) as S1. pose proof (gread_spec 4096 b2 ltac:(lia) T2) as S2.
  destruct (gread 4096 b1) as [c1 [d e]]. destruct K as [K|(-> & c2 & K & G')]; [destruct e as [[]|]; try contradiction; discriminate|]. rewrite K in *.
  destruct S1 as (U1 & _ & _ & V1). destruct S2 as (U2 & _ & _ & V2). specialize (V1 eq_refl). specialize (V2 eq_refl). eapply IH; try eassumption; lia.
Qed.
Lemma parse_on more e2 cs e w size s s' r : 0 < size -> e <> EEof -> snd (gparse (greader cs e w size) s) = (s', r) -> (forall e, r <> Err e) ->
  snd (gparse (greader (cs ++ more) e2 false size) s) = (s', r).
Proof.
  intros Hs He. assert (T : forall cs e w, tame (greader cs e w size)) by (intros; split; cbn; [lia|change (len (@nil Z)) with 0; lia]).
  apply (parse_sim (goes_on more e2)); auto.
  - intros b1 b2 b1' line x G T1 T2. eapply slice_on; try eassumption; apply gfuel_slice.
  - intros b1 b2 b1' z body G T1 T2. eapply body_on; try eassumption; unfold body_meas, gfuel; lia.
  - split; [reflexivity|]. split; [reflexivity|]. split; [exact He|]. left. repeat split.
Qed.
(** * io.EOF on its own, and io.EOF with the last bytes *)
Definition eofish (e : option err) : Prop := e = None \/ e = Some EEof.
Definition dry (b : gbuf) : Prop := exists w, gb_src b = mkSrc [] EEof w /\ eofish (gb_err b).
Definition with_eof (b1 b2 : gbuf) : Prop :=
  gb_buf b2 = gb_buf b1 /\ gb_size b2 = gb_size b1 /\
  ((exists cs, gb_err b1 = None /\ gb_err b2 = None /\ gb_src b1 = mkSrc cs EEof false /\ gb_src b2 = mkSrc cs EEof true) \/
   (dry b1 /\ dry b2 /\ (gb_err b1 <> None -> gb_err b2 <> None))).
Lemma get_with n cs : exists ds t1 t2 d e1 e2, src_get n (mkSrc cs EEof false) = (t1, (d, e1)) /\ src_get n (mkSrc cs EEof true) = (t2, (d, e2)) /\
  t1 = mkSrc ds EEof false /\ t2 = mkSrc ds EEof true /\ ((e1 = None /\ e2 = None) \/ (d = [] /\ ds = [] /\ e1 = Some EEof /\ e2 = Some EEof) \/ (ds = [] /\ e1 = None /\ e2 = Some EEof)).
Proof.
  unfold src_get. cbn [c_chunks c_err c_with]. destruct cs as [|c cs]; [do 6 eexists; repeat split; right; left; repeat split|]. destruct (len c <=? n).
  - exists cs. do 5 eexists. split; [reflexivity|]. split; [reflexivity|]. split; [reflexivity|]. split; [reflexivity|]. destruct cs; [right; right; repeat split|left; repeat split].
  - exists (drop c n :: cs). do 5 eexists. repeat split. left. repeat split.
Qed.
Local Transparent fill.
Lemma fill_dry k b w : gb_src b = mkSrc [] EEof w -> fill (S k) b = mkG (gb_buf b) (Some EEof) (gb_src b) (gb_size b).
Proof. intros H. cbn [fill]. rewrite H. unfold src_get. cbn [c_chunks c_err]. rewrite app_nil_r. reflexivity. Qed.
Lemma fill_with k : forall b1 b2 cs, gb_buf b2 = gb_buf b1 -> gb_size b2 = gb_size b1 -> gb_src b1 = mkSrc cs EEof false -> gb_src b2 = mkSrc cs EEof true ->
  (bad (gb_err (fill k b1)) /\ gb_buf (fill k b1) = gb_buf b1) \/ with_eof (fill k b1) (fill k b2).
Proof.
  induction k as [|k IH]; intros b1 b2 cs H1 H2 H3 H4; [left; split; [exact I|reflexivity]|]. cbn [fill]. rewrite H1, H2, H3, H4.
  destruct (get_with (gb_size b1 - len (gb_buf b1)) cs) as (ds & t1 & t2 & d & e1 & e2 & -> & -> & -> & -> & [[-> ->]|[(-> & -> & -> & ->)|(-> & -> & ->)]]).
  - destruct d as [|y d].
    + apply (IH (mkG (gb_buf b1) None (mkSrc ds EEof false) (gb_size b1)) (mkG (gb_buf b1) None (mkSrc ds EEof true) (gb_size b1)) ds); reflexivity.
    + right. split; [reflexivity|]. split; [reflexivity|]. left. exists ds. repeat split.
  - right. split; [reflexivity|]. split; [reflexivity|]. right. split; [eexists; split; [reflexivity|right; reflexivity]|]. split; [eexists; split; [reflexivity|right; reflexivity]|]. discriminate.
  - destruct d as [|y d].
    + destruct k as [|k]; [left; split; [exact I|reflexivity]|]. right. rewrite (fill_dry k _ false) by reflexivity. cbn [gb_buf gb_src gb_size]. rewrite app_nil_r.
      split; [reflexivity|]. split; [reflexivity|]. right. split; [eexists; split; [reflexivity|right; reflexivity]|]. split; [eexists; split; [reflexivity|right; reflexivity]|]. discriminate.
    + right. split; [reflexivity|]. split; [reflexivity|]. right. split; [eexists; split; [reflexivity|left; reflexivity]|]. split; [eexists; split; [reflexivity|right; reflexivity]|]. discriminate.
Qed.
Local Opaque fill.
Lemma slice_with f1 : forall f2 b1 b2 b1' line e, with_eof b1 b2 -> tame b1 -> tame b2 -> (slice_meas b1 < f1)%nat -> (slice_meas b2 < f2)%nat ->
  gread_slice f1 b1 = (b1', Ok (line, e)) -> ~ bad e -> exists b2', gread_slice f2 b2 = (b2', Ok (line, e)) /\ with_eof b1' b2'.
Proof.
  induction f1 as [|f1 IH]; intros [|f2] b1 b2 b1' line e G T1 T2 F1 F2 E NB; try lia. pose proof G as (H1 & H2 & H4). cbn [gread_slice] in *. rewrite H1.
  destruct (cut 10 (gb_buf b1)) as [[l rest]|] eqn:C.
  - injection E as <- <- <-. eexists. split; [reflexivity|]. split; [reflexivity|]. split; [exact H2|]. exact H4.
  - assert (FULL : gb_err b1 = None -> len (gb_buf b1) < gb_size b1).
    { intros HN. rewrite HN in E. destruct (len (gb_buf b1) >=? gb_size b1) eqn:L; [injection E as <- <- <-; elim NB; exact I|]. rewrite Z.geb_leb in L. apply Z.leb_gt in L. exact L. }
    assert (STEP : gb_err b1 = None -> gb_err b2 = None ->
      (bad (gb_err (fill 100 b1)) /\ gb_buf (fill 100 b1) = gb_buf b1) \/ with_eof (fill 100 b1) (fill 100 b2) ->
      exists b2', match gb_err b2 with Some e0 => (mkG [] None (gb_src b2) (gb_size b2), Ok (gb_buf b1, Some e0)) | None =>
        if len (gb_buf b1) >=? gb_size b2 then (mkG [] None (gb_src b2) (gb_size b2), Ok (gb_buf b1, Some EOther)) else gread_slice f2 (fill 100 b2) end = (b2', Ok (line, e)) /\ with_eof b1' b2').
    { intros N1 N2 K. specialize (FULL N1). rewrite N1 in E. rewrite N2, H2. rewrite Z.geb_leb in *. rewrite (proj2 (Z.leb_gt _ _) FULL) in *.
      assert (L2 : len (gb_buf b2) < gb_size b2) by congruence.
      destruct (fill_spec 100 b1 T1 FULL) as (P1 & _ & _ & _ & _ & _ & _ & P8). destruct (fill_spec 100 b2 T2 L2) as (Q1 & _ & _ & _ & _ & _ & _ & Q8).
      unfold slice_meas in F1, F2. rewrite N1 in F1. rewrite N2 in F2.
      assert (M1 : (slice_meas (fill 100 b1) < f1)%nat) by (unfold slice_meas; destruct (gb_err (fill 100 b1)); [lia|]; specialize (P8 eq_refl); lia).
      assert (M2 : (slice_meas (fill 100 b2) < f2)%nat) by (unfold slice_meas; destruct (gb_err (fill 100 b2)); [lia|]; specialize (Q8 eq_refl); lia).
      destruct K as [[B1 B2]|G'].
      - exfalso. destruct f1 as [|f1]; [unfold slice_meas in M1; lia|]. cbn [gread_slice] in E. rewrite B2, C in E. destruct (gb_err (fill 100 b1)) as [x|]; [|contradiction]. injection E as <- <- <-. contradiction.
      - eapply IH; [exact G'|exact P1|exact Q1|exact M1|exact M2|exact E|exact NB]. }
    destruct H4 as [(cs & N1 & N2 & S1 & S2)|((w1 & S1 & E1) & (w2 & S2 & E2) & H4)].
    + apply STEP; [exact N1|exact N2|]. apply (fill_with 100 b1 b2 cs); assumption.
    + assert (FIN : forall z1 z2, with_eof (mkG [] None (gb_src b1) z1) (mkG [] None (gb_src b2) z2) <-> z1 = z2).
      { intros z1 z2. split; [intros (_ & X & _); cbn in X; congruence|]. intros ->. split; [reflexivity|]. split; [reflexivity|]. right. split; [exists w1; split; [exact S1|left; reflexivity]|]. split; [exists w2; split; [exact S2|left; reflexivity]|]. intros X. elim X. reflexivity. }
      destruct E1 as [N1|N1].
      * destruct E2 as [N2|N2].
        -- apply STEP; [exact N1|exact N2|]. right. rewrite (fill_dry 99 b1 w1 S1), (fill_dry 99 b2 w2 S2), H1, H2. split; [reflexivity|]. split; [reflexivity|]. right.
           split; [exists w1; split; [exact S1|right; reflexivity]|]. split; [exists w2; split; [exact S2|right; reflexivity]|]. discriminate.
        -- specialize (FULL N1). rewrite N1 in E. rewrite Z.geb_leb in E. rewrite (proj2 (Z.leb_gt _ _) FULL) in E. unfold slice_meas in F1. rewrite N1 in F1. destruct f1 as [|f1]; [lia|]. cbn [gread_slice] in E.
           rewrite (fill_dry 99 b1 w1 S1) in E. cbn [gb_buf gb_err gb_src gb_size] in E. rewrite C in E. injection E as <- <- <-. rewrite N2. eexists. split; [reflexivity|]. apply FIN. symmetry. exact H2.
      * rewrite N1 in E. injection E as <- <- <-. destruct E2 as [N2|N2]; [elim H4; [rewrite N1; discriminate|exact N2]|]. rewrite N2. eexists. split; [reflexivity|]. apply FIN. symmetry. exact H2.
Qed.
Lemma body_dry f : forall size body b b' x, gb_buf b = [] -> dry b -> gbody_loop f size body b = (b', Ok x) -> x = body.
Proof.
  intros size body b b' x HB (w & HS & He) E. destruct f as [|f]; cbn [gbody_loop] in E; (destruct (size <=? 0); [injection E as _ <-; reflexivity|]); [discriminate|].
  assert (R : snd (gread 4096 b) = ([], Some EEof)).
  { unfold gread. rewrite HB, HS. destruct He as [-> | ->]; [|reflexivity]. destruct (4096 >=? gb_size b); reflexivity. }
  destruct (gread 4096 b) as [c [d e]]. cbn [snd] in R. injection R as -> ->. injection E as _ <-. apply app_nil_r.
Qed.
Lemma read_with n b1 b2 : with_eof b1 b2 -> exists b1' b2' d e1 e2, gread n b1 = (b1', (d, e1)) /\ gread n b2 = (b2', (d, e2)) /\
  ((e1 = None /\ e2 = None /\ with_eof b1' b2') \/ (e1 = Some EEof /\ e2 = Some EEof) \/ (e1 = None /\ e2 = Some EEof /\ gb_buf b1' = [] /\ dry b1')).
Proof.
  intros (H1 & H2 & H4). unfold gread. rewrite H1, H2. destruct (gb_buf b1) as [|y d].
  - destruct H4 as [(cs & N1 & N2 & S1 & S2)|((w1 & S1 & E1) & (w2 & S2 & E2) & H4)].
    + rewrite N1, N2, S1, S2. destruct (n >=? gb_size b1).
      * destruct (get_with n cs) as (ds & t1 & t2 & d & e1 & e2 & -> & -> & -> & -> & [[-> ->]|[(-> & -> & -> & ->)|(-> & -> & ->)]]); do 5 eexists; (split; [reflexivity|]); (split; [reflexivity|]).
        -- left. split; [reflexivity|]. split; [reflexivity|]. split; [reflexivity|]. split; [reflexivity|]. left. exists ds. repeat split.
        -- right. left. split; reflexivity.
        -- right. right. repeat split. eexists. split; [reflexivity|left; reflexivity].
      * destruct (get_with (gb_size b1) cs) as (ds & t1 & t2 & d & e1 & e2 & -> & -> & -> & -> & [[-> ->]|[(-> & -> & -> & ->)|(-> & -> & ->)]]).
        -- destruct d as [|y d]; do 5 eexists; (split; [reflexivity|]); (split; [reflexivity|]); left; (split; [reflexivity|]); (split; [reflexivity|]); (split; [reflexivity|]); (split; [reflexivity|]); left; exists ds; repeat split.
        -- do 5 eexists. split; [reflexivity|]. split; [reflexivity|]. right. left. split; reflexivity.
        -- destruct d as [|y d]; do 5 eexists; (split; [reflexivity|]); (split; [reflexivity|]).
           ++ right. right. repeat split. eexists. split; [reflexivity|left; reflexivity].
           ++ left. split; [reflexivity|]. split; [reflexivity|]. split; [reflexivity|]. split; [reflexivity|]. right. split; [eexists; split; [reflexivity|left; reflexivity]|]. split; [eexists; split; [reflexivity|right; reflexivity]|]. intros X. elim X. reflexivity.
    + rewrite S1, S2. destruct E1 as [E1|E1], E2 as [E2|E2]; rewrite E1, E2; try (destruct (n >=? gb_size b1)); do 5 eexists; (split; [reflexivity|]); (split; [reflexivity|]); right; left; split; reflexivity.
  - do 5 eexists. split; [reflexivity|]. split; [reflexivity|]. left. split; [reflexivity|]. split; [reflexivity|]. split; [reflexivity|]. split; [reflexivity|]. exact H4.
Qed.
Lemma body_with f1 : forall f2 size body b1 b2 b1' x, with_eof b1 b2 -> tame b1 -> tame b2 -> (body_meas b1 < f1)%nat -> (body_meas b2 < f2)%nat ->
  gbody_loop f1 size body b1 = (b1', Ok x) -> exists b2', gbody_loop f2 size body b2 = (b2', Ok x).
Proof.
  induction f1 as [|f1 IH]; intros [|f2] size body b1 b2 b1' x G T1 T2 F1 F2 E; try lia. cbn [gbody_loop] in *. destruct (size <=? 0); [injection E as <- <-; eauto|].
  pose proof (gread_spec 4096 b1 ltac:(lia) T1) as S1. pose proof (gread_spec 4096 b2 ltac:(lia) T2) as S2.
  destruct (read_with 4096 b1 b2 G) as (c1 & c2 & d & e1 & e2 & R1 & R2 & K). rewrite R1 in *. rewrite R2 in *.
  destruct S1 as (U1 & _ & _ & V1). destruct S2 as (U2 & _ & _ & V2). destruct K as [(-> & -> & G')|[(-> & ->)|(-> & -> & B & D)]].
  - specialize (V1 eq_refl). specialize (V2 eq_refl). eapply IH; try eassumption; lia.
  - injection E as <- <-. eauto.
  - apply body_dry in E; [|exact B|exact D]. subst x. eauto.
Qed.
Lemma parse_with cs size s s' r : 0 < size -> snd (gparse (greader cs EEof false size) s) = (s', r) -> (forall e, r <> Err e) ->
  snd (gparse (greader cs EEof true size) s) = (s', r).
Proof.
  intros Hs. assert (T : forall cs e w, tame (greader cs e w size)) by (intros; split; cbn; [lia|change (len (@nil Z)) with 0; lia]).
  apply (parse_sim with_eof); auto.
  - intros b1 b2 b1' line x G T1 T2. eapply slice_with; try eassumption; apply gfuel_slice.
  - intros b1 b2 b1' z body G T1 T2. eapply body_with; try eassumption; unfold body_meas, gfuel; lia.
  - split; [reflexivity|]. split; [reflexivity|]. left. exists cs. repeat split.
Qed.
(** * Sources that end with io.EOF: Model/Sip.v *)
Definition same_reader (b : bufr) (g : gbuf) : Prop :=
  gb_buf g = bf_buf b /\ gb_size g = bf_size b /\ gb_src g = mkSrc (bf_src b) EEof false /\ Forall (fun c => c <> []) (bf_src b) /\
  (if bf_eof b then gb_err g = Some EEof /\ bf_src b = [] else gb_err g = None).
Definition bmeas (b : bufr) : nat := (length (concat (bf_src b)) + if bf_eof b then 0 else 1)%nat.
Lemma drop_ne (c : bytes) n : 0 <= n -> (len c <=? n) = false -> drop c n <> [].
Proof. intros H0 H E. apply Z.leb_gt in H. apply (f_equal (@length Z)) in E. unfold drop, len in *. rewrite skipn_length in E. cbn [length] in E. lia. Qed.
Lemma take_ne (c : bytes) n : 0 < n -> c <> [] -> take c n <> [].
Proof. intros H0 H E. destruct c as [|x c]; [congruence|]. unfold take in E. replace (Z.to_nat n) with (S (Z.to_nat n - 1)) in E by lia. discriminate. Qed.
(** The two sources. *)
Lemma get_same n cs : 0 < n -> Forall (fun c => c <> []) cs ->
  match src_read n cs with
  | None => cs = [] /\ src_get n (mkSrc cs EEof false) = (mkSrc [] EEof false, ([], Some EEof))
  | Some (d, ds) => d <> [] /\ src_get n (mkSrc cs EEof false) = (mkSrc ds EEof false, (d, None)) /\ Forall (fun c => c <> []) ds /\ concat cs = d ++ concat ds
  end.
Proof.
  intros Hn F. destruct cs as [|c cs]; cbn [src_read]; [split; reflexivity|]. apply Forall_cons_iff in F as [F1 F2]. unfold src_get. cbn [c_chunks c_err c_with].
  destruct c as [|x c]; [congruence|]. destruct (len (x :: c) <=? n) eqn:L.
  - split; [discriminate|]. split; [destruct cs; reflexivity|]. split; [exact F2|reflexivity].
  - split; [apply take_ne; [exact Hn|discriminate]|]. split; [reflexivity|]. split; [constructor; [apply drop_ne; [lia|exact L]|exact F2]|]. cbn [concat]. rewrite app_assoc. f_equal. symmetry. unfold take, drop. apply firstn_skipn.
Qed.
Local Transparent fill.
Lemma fill_same b g k : same_reader b g -> bf_eof b = false -> len (bf_buf b) < bf_size b ->
  match src_read (bf_size b - len (bf_buf b)) (bf_src b) with
  | None => same_reader (mkB (bf_buf b) true [] (bf_size b)) (fill (S k) g) /\ bf_src b = []
  | Some (d, cs) => same_reader (mkB (bf_buf b ++ d) false cs (bf_size b)) (fill (S k) g) /\ d <> [] /\ concat (bf_src b) = d ++ concat cs
  end.
Proof.
  intros (H1 & H2 & H3 & H4 & H5) He L. rewrite He in H5. pose proof (get_same (bf_size b - len (bf_buf b)) (bf_src b) ltac:(lia) H4) as G. cbn [fill]. rewrite H1, H2, H3.
  destruct (src_read (bf_size b - len (bf_buf b)) (bf_src b)) as [[d cs]|].
  - destruct G as (G1 & -> & G3 & G4). destruct d as [|y d]; [congruence|]. split; [|split; [exact G1|exact G4]]. split; [reflexivity|]. split; [reflexivity|]. split; [reflexivity|]. split; [exact G3|reflexivity].
  - destruct G as (-> & G2). rewrite G2. split; [|reflexivity]. split; [cbn; apply app_nil_r|]. split; [reflexivity|]. split; [reflexivity|]. split; [constructor|]. split; reflexivity.
Qed.
Local Opaque fill.
Lemma slice_same f1 : forall f2 b g, same_reader b g -> tame g -> (bmeas b < f1)%nat -> (slice_meas g < f2)%nat ->
  exists b' r g' line e, read_slice f1 b = (b', r) /\ gread_slice f2 g = (g', Ok (line, e)) /\
  ((r = Ok (line, true) /\ e = Some EEof /\ same_reader b' g') \/ (r = Ok (line, false) /\ e = None /\ same_reader b' g') \/ (r = Err EOther /\ e = Some EOther)).
Proof.
  induction f1 as [|f1 IH]; intros [|f2] b g R T F1 F2; try lia. pose proof R as (H1 & H2 & H3 & H4 & H5). cbn [read_slice gread_slice]. rewrite H1. destruct (cut 10 (bf_buf b)) as [[l rest]|] eqn:C.
  - do 5 eexists. split; [reflexivity|]. split; [reflexivity|]. right. left. split; [reflexivity|]. split; [reflexivity|]. split; [reflexivity|]. split; [exact H2|]. split; [exact H3|]. split; [exact H4|exact H5].
  - destruct (bf_eof b) eqn:He.
    + destruct H5 as [H5 H6]. rewrite H5. do 5 eexists. split; [reflexivity|]. split; [reflexivity|]. left. split; [reflexivity|]. split; [reflexivity|]. split; [reflexivity|]. split; [exact H2|]. split; [exact H3|]. split; [exact H4|reflexivity].
    + rewrite H5, H2. destruct (len (bf_buf b) >=? bf_size b) eqn:L; [do 5 eexists; split; [reflexivity|]; split; [reflexivity|]; right; right; split; reflexivity|].
      rewrite Z.geb_leb in L. apply Z.leb_gt in L. pose proof (fill_same b g 99 R He L) as K.
      assert (L2 : len (gb_buf g) < gb_size g) by congruence. destruct (fill_spec 100 g T L2) as (P1 & _ & _ & _ & _ & _ & _ & P8).
      unfold bmeas in F1. rewrite He in F1. unfold slice_meas in F2. rewrite H5 in F2.
      assert (M : (slice_meas (fill 100 g) < f2)%nat) by (unfold slice_meas; destruct (gb_err (fill 100 g)); [lia|]; specialize (P8 eq_refl); lia).
      destruct (src_read (bf_size b - len (bf_buf b)) (bf_src b)) as [[d cs]|].
      * destruct K as (K1 & K2 & K3). apply IH; [exact K1|exact P1| |exact M]. unfold bmeas. cbn [bf_src bf_eof]. rewrite K3, app_length in F1. destruct d; [congruence|]. cbn [length] in F1. lia.
      * destruct K as (K1 & K2). apply IH; [exact K1|exact P1| |exact M]. unfold bmeas. cbn [bf_src bf_eof concat length]. lia.
Qed.
Lemma read_same n b g : 0 < n -> 0 < bf_size b -> same_reader b g -> exists b' o g' e, buf_read n b = (b', o) /\
  gread n g = (g', (match o with Some d => d | None => [] end, e)) /\ match o with None => e = Some EEof | Some d => e = None /\ d <> [] /\ same_reader b' g' end.
Proof.
  intros Hn Hs R. pose proof R as (H1 & H2 & H3 & H4 & H5). unfold buf_read, gread. rewrite H1. destruct (bf_buf b) as [|x d].
  - destruct (bf_eof b).
    + destruct H5 as [H5 H6]. rewrite H5. do 4 eexists. split; [reflexivity|]. split; reflexivity.
    + rewrite H5, H2, H3. destruct (n >=? bf_size b).
      * pose proof (get_same n (bf_src b) Hn H4) as G. destruct (src_read n (bf_src b)) as [[d cs]|].
        -- destruct G as (G1 & -> & G3 & G4). do 4 eexists. split; [reflexivity|]. split; [reflexivity|]. split; [reflexivity|]. split; [exact G1|]. split; [reflexivity|]. split; [reflexivity|]. split; [reflexivity|]. split; [exact G3|reflexivity].
        -- destruct G as (_ & ->). do 4 eexists. split; [reflexivity|]. split; reflexivity.
      * pose proof (get_same (bf_size b) (bf_src b) Hs H4) as G. destruct (src_read (bf_size b) (bf_src b)) as [[d cs]|].
        -- destruct G as (G1 & -> & G3 & G4). destruct d as [|y d]; [congruence|]. do 4 eexists. split; [reflexivity|]. split; [reflexivity|]. split; [reflexivity|]. split; [apply take_ne; assumption|]. split; [reflexivity|]. split; [reflexivity|]. split; [reflexivity|]. split; [exact G3|reflexivity].
        -- destruct G as (_ & ->). do 4 eexists. split; [reflexivity|]. split; reflexivity.
  - do 4 eexists. split; [reflexivity|]. split; [reflexivity|]. split; [reflexivity|]. split; [apply take_ne; [exact Hn|discriminate]|]. split; [reflexivity|]. split; [exact H2|]. split; [exact H3|]. split; [exact H4|exact H5].
Qed.
Lemma same_rest b g : same_reader b g -> gb_rest g = bf_rest b.
Proof. intros (H1 & _ & H3 & _). unfold gb_rest, bf_rest. rewrite H1, H3. reflexivity. Qed.
Lemma body_same f1 : forall f2 size body b g, same_reader b g -> tame g -> (length (bf_rest b) < f1)%nat -> (body_meas g < f2)%nat ->
  snd (body_loop f1 size body b) = snd (gbody_loop f2 size body g).
Proof.
  induction f1 as [|f1 IH]; intros [|f2] size body b g R T F1 F2; try lia. cbn [body_loop gbody_loop]. destruct (size <=? 0); [reflexivity|].
  assert (Hs : 0 < bf_size b) by (destruct T as [T _]; destruct R as (_ & R & _); lia).
  destruct (read_same 4096 b g ltac:(lia) Hs R) as (b' & o & g' & e & -> & E2 & K). pose proof (gread_spec 4096 g ltac:(lia) T) as S. rewrite E2 in S |- *. destruct S as (S1 & _ & S3 & S4). destruct o as [d|].
  - destruct K as (-> & Hd & R'). specialize (S4 eq_refl). apply IH; [exact R'|exact S1| |lia]. rewrite (same_rest _ _ R), (same_rest _ _ R') in S3. rewrite S3, app_length in F1. destruct d; [congruence|]. cbn [length] in F1. lia.
  - subst e. cbn [snd]. rewrite app_nil_r. reflexivity.
Qed.
Lemma lines_same f1 : forall f2 b g count offset buffer s, same_reader b g -> tame g -> (length (bf_rest b) < f1)%nat -> (length (gb_rest g) < f2)%nat ->
  exists b' g' x, parse_lines f1 b count offset buffer s = (b', x) /\ gparse_lines f2 g count offset buffer s = (g', x) /\ (forall s' y, x = (s', Ok y) -> same_reader b' g' /\ tame g').
Proof.
  induction f1 as [|f1 IH]; intros [|f2] b g count offset buffer s R T F1 F2; try lia. cbn [parse_lines gparse_lines].
  assert (M : (bmeas b < S (S (length (bf_rest b))))%nat) by (unfold bmeas, bf_rest; rewrite app_length; destruct (bf_eof b); lia).
  destruct (slice_same _ _ b g R T M (gfuel_slice g)) as (b' & r & g' & line & e & E1 & E2 & K). rewrite E1, E2.
  destruct (gread_slice_spec (gfuel g) g T (gfuel_slice g)) as (g'' & line' & e' & E2' & T' & V & W & _ & X). rewrite E2 in E2'. injection E2' as <- <- <-.
  assert (GO : same_reader b' g' -> line <> [] -> exists b1 g1 x,
    (if len (trim_crlf line) =? 0 then (b', (s, Ok (offset + len line - len line, buffer ++ line))) else
     match (if count =? 0 then parse_first_line (trim_crlf line) s else parse_header (trim_crlf line) s) with
     | (s', Ok _) => parse_lines f1 b' (count + 1) (offset + len line) (buffer ++ line) s'
     | (s', Err e) => (b', (s', Err e)) | (s', Panic) => (b', (s', Panic)) | (s', OutOfFuel) => (b', (s', OutOfFuel)) end) = (b1, x) /\
    (if len (trim_crlf line) =? 0 then (g', (s, Ok (offset + len line - len line, buffer ++ line))) else
     match (if count =? 0 then parse_first_line (trim_crlf line) s else parse_header (trim_crlf line) s) with
     | (s', Ok _) => gparse_lines f2 g' (count + 1) (offset + len line) (buffer ++ line) s'
     | (s', Err e) => (g', (s', Err e)) | (s', Panic) => (g', (s', Panic)) | (s', OutOfFuel) => (g', (s', OutOfFuel)) end) = (g1, x) /\
    (forall s' y, x = (s', Ok y) -> same_reader b1 g1 /\ tame g1)).
  { intros R' Hl. destruct (len (trim_crlf line) =? 0); [do 3 eexists; split; [reflexivity|]; split; [reflexivity|]; intros; split; assumption|].
    destruct (if count =? 0 then parse_first_line (trim_crlf line) s else parse_header (trim_crlf line) s) as [s1 [u|x| |]];
      try (do 3 eexists; split; [reflexivity|]; split; [reflexivity|]; intros; discriminate).
    pose proof (same_rest _ _ R) as S1. pose proof (same_rest _ _ R') as S2. rewrite W, S2 in S1. rewrite <- S1 in F1. rewrite W in F2. rewrite app_length in F1, F2. assert (0 < length line)%nat by (destruct line; [congruence|cbn [length]; lia]).
    apply IH; [exact R'|exact T'|lia|lia]. }
  cbv zeta. destruct K as [(-> & -> & R')|[(-> & -> & R')|(-> & ->)]]; cbn [andb].
  - destruct (len line =? 0) eqn:L0; [do 3 eexists; split; [reflexivity|]; split; [reflexivity|]; intros; split; assumption|]. apply GO; [exact R'|]. intros ->. discriminate.
  - apply GO; [exact R'|apply X; reflexivity].
  - do 3 eexists. split; [reflexivity|]. split; [reflexivity|]. intros; discriminate.
Qed.
Lemma parse_same b g s : same_reader b g -> tame g -> snd (gparse g s) = snd (sip_parse b s).
Proof.
  intros R T. unfold gparse, sip_parse.
  destruct (lines_same (S (S (length (bf_rest b)))) (gfuel g) b g 0 0 [] s R T ltac:(lia) ltac:(unfold gfuel; lia)) as (b' & g' & x & -> & -> & K).
  destruct x as [s1 [[offset buffer]|e| |]]; try reflexivity. destruct (K _ _ eq_refl) as [R' T']. destruct (fill_header s1) as [s2 [u|e| |]]; try reflexivity.
  unfold gfill_body, fill_body. destruct (get_content_length (s_headers s2)) as [size|e| |]; try reflexivity.
  pose proof (body_same (S (length (bf_rest b'))) (gfuel g') (size - (len buffer - offset)) [] b' g' R' T' ltac:(lia) ltac:(unfold body_meas, gfuel; lia)) as B.
  destruct (body_loop (S (length (bf_rest b'))) (size - (len buffer - offset)) [] b') as [b1 r1], (gbody_loop (gfuel g') (size - (len buffer - offset)) [] g') as [g1 r2]. cbn [snd] in B. subst r2.
  destruct r1; reflexivity.
Qed.
Lemma parse_eof cs size s : 0 < size -> Forall (fun c => c <> []) cs -> snd (gparse (greader cs EEof false size) s) = snd (sip_parse (mkB [] false cs size) s).
Proof.
  intros Hs F. apply parse_same; [|split; cbn; [lia|change (len (@nil Z)) with 0; lia]]. split; [reflexivity|]. split; [reflexivity|]. split; [reflexivity|]. split; [exact F|reflexivity].
Qed.
