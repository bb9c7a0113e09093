(** SIP Parse over sources that return io.EOF alone and sources that return it with their last bytes (C212). *)
From Coq Require Import String.
From Verif Require Import Base.Go Base.GoFacts Base.IO Base.Text Model.Sip Model.SipSrc Spec.Sip Spec.SipWhole Proofs.Text Proofs.SipMore Proofs.SipSrc Proofs.SipWhole.
Import ListNotations. Local Open Scope list_scope. Local Open Scope Z_scope.

Definition something (c : bytes) : Prop := c <> [].
Lemma no_bytes cs : Forall something cs -> concat cs = [] -> cs = [].
Proof. intros F E. destruct cs as [|c cs]; [reflexivity|]. apply Forall_cons_iff in F as [F _]. cbn [concat] in E. apply app_eq_nil in E as [E _]. contradiction. Qed.
(** A reader over a source that ends with io.EOF: with [w], the bytes that were read last came with it. *)
Definition ends_well (g : gbuf) : Prop :=
  tame g /\ Forall something (c_chunks (gb_src g)) /\ c_err (gb_src g) = EEof /\
  match gb_err g with None => c_with (gb_src g) = true -> c_chunks (gb_src g) = [] -> gb_buf g = [] | Some e => e = EEof /\ c_chunks (gb_src g) = [] end.
Lemma get_ends n s : 0 < n -> Forall something (c_chunks s) -> c_err s = EEof -> exists d cs e, src_get n s = (mkSrc cs EEof (c_with s), (d, e)) /\ Forall something cs /\
  concat (c_chunks s) = d ++ concat cs /\ len d <= n /\
  match e with
  | Some e => e = EEof /\ cs = [] /\ (d = [] \/ c_with s = true)
  | None => d <> [] /\ (c_with s = true -> cs <> []) /\ (length (concat cs) < length (concat (c_chunks s)))%nat
  end.
Proof.
  destruct s as [cs e w]. cbn [c_chunks c_err c_with]. intros Hn F ->. unfold src_get. cbn [c_chunks c_err c_with]. destruct cs as [|c cs].
  - exists [], [], (Some EEof). repeat split; auto. change (len (@nil Z)) with 0. lia.
  - apply Forall_cons_iff in F as [F1 F2]. destruct (len c <=? n) eqn:L.
    + exists c, cs, (match cs with [] => if w then Some EEof else None | _ => None end). split; [reflexivity|]. split; [exact F2|]. split; [reflexivity|]. split; [lia|].
      assert (0 < length c)%nat by (destruct c; [elim F1; reflexivity|cbn [length]; lia]).
      destruct cs as [|c' cs]; [destruct w|].
      * repeat split. right. reflexivity.
      * split; [exact F1|]. split; [discriminate|]. cbn [concat]. rewrite app_length. lia.
      * split; [exact F1|]. split; [discriminate|]. cbn [concat]. rewrite !app_length. lia.
    + destruct (take_drop_len c n Hn L) as (D1 & D2 & D3 & D4). exists (take c n), (drop c n :: cs), None. split; [reflexivity|]. split; [constructor; [exact D4|exact F2]|].
      split; [cbn [concat]; rewrite app_assoc, <- D3; reflexivity|]. split; [unfold take, len; rewrite firstn_length; lia|]. split; [exact D1|]. split; [discriminate|]. cbn [concat]. rewrite !app_length. lia.
Qed.
Local Transparent fill.
Lemma fill_ends k g : ends_well g -> gb_err g = None -> len (gb_buf g) < gb_size g -> ends_well (fill (S k) g) /\ gb_rest (fill (S k) g) = gb_rest g /\ gb_size (fill (S k) g) = gb_size g /\
  c_with (gb_src (fill (S k) g)) = c_with (gb_src g) /\ (gb_err (fill (S k) g) = None -> (slice_meas (fill (S k) g) < slice_meas g)%nat).
Proof.
  intros ([T1 T2] & H2 & H3 & H4) N L. cbn [fill]. destruct (get_ends (gb_size g - len (gb_buf g)) (gb_src g) ltac:(lia) H2 H3) as (d & cs & e & -> & G1 & G2 & G3 & G4).
  unfold slice_meas, gb_rest. rewrite N. destruct e as [e|].
  - destruct G4 as (-> & -> & G4). cbn [concat app] in *. split; [|split; [|split; [reflexivity|split; [reflexivity|discriminate]]]].
    + split; [split; cbn [gb_size gb_buf]; [lia|rewrite len_app; lia]|]. cbn [gb_src gb_err c_chunks c_err c_with gb_buf]. repeat split; auto.
    + cbn [gb_buf gb_src c_chunks concat]. rewrite G2, !app_nil_r. reflexivity.
  - destruct G4 as (G5 & G6 & G7). destruct d as [|y d]; [congruence|]. split; [|split; [|split; [reflexivity|split; [reflexivity|]]]].
    + split; [split; cbn [gb_size gb_buf]; [lia|rewrite len_app; lia]|]. cbn [gb_src gb_err c_chunks c_err c_with gb_buf]. repeat split; auto. intros W E. elim (G6 W E).
    + cbn [gb_buf gb_src c_chunks]. rewrite G2, <- app_assoc. reflexivity.
    + intros _. cbn [gb_err gb_src c_chunks]. lia.
Qed.
Local Opaque fill.
Lemma prefix_cut (b r u t : bytes) : b ++ r = u ++ 10 :: t -> Forall (fun x => x <> 10) u -> cut 10 b = None \/ exists t', b = u ++ 10 :: t' /\ t = t' ++ r.
Proof.
  intros E F. destruct (cut 10 b) as [[a c]|] eqn:C; [right|left; reflexivity]. apply cut_some in C as [-> Fa]. rewrite <- app_assoc in E. cbn [app] in E.
  assert (X : cut 10 (a ++ 10 :: c ++ r) = cut 10 (u ++ 10 :: t)) by (rewrite E; reflexivity). rewrite !cut_app in X by assumption. injection X as -> <-. exists c. split; reflexivity.
Qed.
(** A line that ends in a line feed. *)
Lemma slice_line f : forall g u t, ends_well g -> (slice_meas g < f)%nat -> gb_rest g = u ++ 10 :: t -> Forall (fun x => x <> 10) u -> len u + 1 <= gb_size g ->
  exists g', gread_slice f g = (g', Ok (u ++ [10], None)) /\ gb_rest g' = t /\ ends_well g' /\ gb_size g' = gb_size g /\ c_with (gb_src g') = c_with (gb_src g).
Proof.
  induction f as [|f IH]; intros g u t G M E F L; [lia|]. cbn [gread_slice]. destruct (prefix_cut _ _ _ _ E F) as [C|(t' & B & ->)].
  - rewrite C. apply cut_none_inv in C. pose proof G as (T & G2 & G3 & G4).
    assert (P : len (gb_buf g) <= len u).
    { unfold gb_rest in E. destruct (Z.le_gt_cases (len (gb_buf g)) (len u)) as [H|H]; [exact H|exfalso]. assert (I : In 10 (firstn (length (gb_buf g)) (u ++ 10 :: t))).
      { rewrite firstn_app. apply in_or_app. right. unfold len in H. replace (length (gb_buf g) - length u)%nat with (S (length (gb_buf g) - length u - 1)) by lia. left. reflexivity. }
      rewrite <- E, firstn_app, Nat.sub_diag, firstn_O, app_nil_r, firstn_all in I. rewrite Forall_forall in C. apply (C _ I). reflexivity. }
    destruct (gb_err g) as [x|] eqn:N.
    + exfalso. destruct G4 as [_ G4]. unfold gb_rest in E. rewrite G4 in E. cbn [concat] in E. rewrite app_nil_r in E. rewrite E, len_app, len_cons in P. pose proof (len_nonneg t). lia.
    + rewrite Z.geb_leb, (proj2 (Z.leb_gt _ _)) by lia. destruct (fill_ends 99 g G N ltac:(lia)) as (K1 & K2 & K3 & K4 & K5).
      assert (M' : (slice_meas (fill 100 g) < f)%nat).
      { destruct (gb_err (fill 100 g)) eqn:N'; [unfold slice_meas; rewrite N'; unfold slice_meas in M; rewrite N in M; lia|]. specialize (K5 eq_refl). lia. }
      destruct (IH (fill 100 g) u t K1 M' ltac:(congruence) F ltac:(congruence)) as (g' & X1 & X2 & X3 & X4 & X5). exists g'. repeat split; try assumption; try congruence; apply X3.
  - rewrite B, (cut_app 10 u t' F). eexists. split; [reflexivity|]. split; [reflexivity|]. split; [|split; reflexivity]. destruct G as ([T1 T2] & G2 & G3 & G4). rewrite B, len_app, len_cons in T2. pose proof (len_nonneg u).
    split; [split; cbn [gb_size gb_buf]; lia|]. cbn [gb_src gb_err gb_buf]. split; [exact G2|]. split; [exact G3|]. destruct (gb_err g); [exact G4|]. intros W X. specialize (G4 W X). rewrite B in G4. destruct u; discriminate.
Qed.
(** The last line: it may fill the buffer when io.EOF comes with it. *)
Lemma slice_end f : forall g, ends_well g -> (slice_meas g < f)%nat -> Forall (fun x => x <> 10) (gb_rest g) -> len (gb_rest g) < gb_size g \/ c_with (gb_src g) = true /\ len (gb_rest g) <= gb_size g ->
  exists g', gread_slice f g = (g', Ok (gb_rest g, Some EEof)) /\ gb_rest g' = [] /\ ends_well g' /\ gb_size g' = gb_size g /\ c_with (gb_src g') = c_with (gb_src g).
Proof.
  induction f as [|f IH]; intros g G M F L; [lia|]. cbn [gread_slice]. pose proof G as ([T1 T2] & G2 & G3 & G4).
  assert (C : cut 10 (gb_buf g) = None) by (apply cut_none; unfold gb_rest in F; apply Forall_app in F as [F _]; exact F). rewrite C. destruct (gb_err g) as [x|] eqn:N.
  - destruct G4 as [-> G4]. eexists. unfold gb_rest. cbn [gb_buf gb_src]. rewrite G4. cbn [concat]. rewrite app_nil_r. split; [reflexivity|]. split; [cbn [gb_buf gb_src app]; rewrite G4; reflexivity|]. split; [|split; reflexivity].
    split; [split; cbn [gb_size gb_buf]; [lia|change (len (@nil Z)) with 0; lia]|]. cbn [gb_src gb_err gb_buf]. split; [exact G2|]. split; [exact G3|]. auto.
  - assert (P : len (gb_buf g) < gb_size g).
    { assert (len (gb_rest g) = len (gb_buf g) + len (concat (c_chunks (gb_src g)))) by (unfold gb_rest; rewrite len_app; reflexivity). pose proof (len_nonneg (concat (c_chunks (gb_src g)))).
      destruct L as [L|[W L]]; [lia|]. destruct (c_chunks (gb_src g)) as [|c cs] eqn:Ec; [rewrite (G4 W eq_refl); change (len (@nil Z)) with 0; lia|].
      apply Forall_cons_iff in G2 as [G2 _]. cbn [concat] in H. rewrite !len_app in H. pose proof (len_nonneg (concat cs)). destruct c; [elim G2; reflexivity|]. rewrite len_cons in H. pose proof (len_nonneg c). lia. }
    rewrite Z.geb_leb, (proj2 (Z.leb_gt _ _)) by lia. destruct (fill_ends 99 g G N P) as (K1 & K2 & K3 & K4 & K5).
    assert (M' : (slice_meas (fill 100 g) < f)%nat).
    { destruct (gb_err (fill 100 g)) eqn:N'; [unfold slice_meas; rewrite N'; unfold slice_meas in M; rewrite N in M; lia|]. specialize (K5 eq_refl). lia. }
    destruct (IH (fill 100 g) K1 M') as (g' & X1 & X2 & X3 & X4 & X5); [rewrite K2; exact F|rewrite K2, K3, K4; exact L|]. rewrite K2 in X1. exists g'. repeat split; try assumption; try congruence; apply X3.
Qed.
Lemma without_lf (s : bytes) : without [10] s -> Forall (fun x => x <> 10) s.
Proof. intros H. eapply Forall_impl; [|exact H]. intros x Hx ->. apply Hx. left. reflexivity. Qed.

(** * When the last line fills the buffer *)
Definition able (size : Z) (g : gbuf) : Prop := ends_well g /\ (c_with (gb_src g) = true /\ gb_size g = size \/ size < gb_size g).
Lemma slice_next size r l rest : next_line size r l rest -> exists e, (e = None \/ e = Some EEof) /\
  forall g, able size g -> gb_rest g = r -> exists g', gread_slice (gfuel g) g = (g', Ok (l, e)) /\ gb_rest g' = rest /\ able size g'.
Proof.
  intros (-> & Nl & [[(u & -> & W) L]|(W & -> & L)]).
  - exists None. split; [left; reflexivity|]. intros g (G & S) E. destruct (slice_line (gfuel g) g u rest G (gfuel_slice g)) as (g' & X1 & X2 & X3 & X4 & X5);
      [rewrite E, <- app_assoc; reflexivity|apply without_lf, W|rewrite len_app in L; change (len [10]) with 1 in L; destruct S as [[_ S]|S]; lia|].
    exists g'. split; [exact X1|]. split; [exact X2|]. split; [exact X3|]. rewrite X4, X5. exact S.
  - exists (Some EEof). split; [right; reflexivity|]. intros g (G & S) E. rewrite app_nil_r in E. destruct (slice_end (gfuel g) g G (gfuel_slice g)) as (g' & X1 & X2 & X3 & X4 & X5);
      [rewrite E; apply without_lf, W|rewrite E; left; destruct S as [[_ S]|S]; lia|].
    exists g'. rewrite E in X1. split; [exact X1|]. split; [exact X2|]. split; [exact X3|]. rewrite X4, X5. exact S.
Qed.
Lemma slice_last size r g : without [10] r -> len r <= size -> able size g -> gb_rest g = r -> exists g', gread_slice (gfuel g) g = (g', Ok (r, Some EEof)) /\ gb_rest g' = [] /\ able size g'.
Proof.
  intros W L (G & S) E. destruct (slice_end (gfuel g) g G (gfuel_slice g)) as (g' & X1 & X2 & X3 & X4 & X5);
    [rewrite E; apply without_lf, W|rewrite E; destruct S as [[S1 S2]|S]; [right; split; [exact S1|lia]|left; lia]|].
  exists g'. rewrite E in X1. split; [exact X1|]. split; [exact X2|]. split; [exact X3|]. rewrite X4, X5. exact S.
Qed.
Definition outcome_of (size : Z) (r : bytes) (count offset : Z) (buffer : bytes) (s : sip) (x : sip * res (Z * bytes)) : Prop :=
  forall g f, able size g -> gb_rest g = r -> (length r + 1 < f)%nat ->
  exists h, gparse_lines f g count offset buffer s = (h, x) /\ ((exists a, snd x = Ok a) -> able size h /\ gb_rest h = []).
Lemma line_outcome size r l rest count offset buffer s : l <> [] -> r = l ++ rest -> (trim_crlf l = [] -> rest = []) ->
  (exists e, (e = None \/ e = Some EEof) /\ forall g, able size g -> gb_rest g = r -> exists g', gread_slice (gfuel g) g = (g', Ok (l, e)) /\ gb_rest g' = rest /\ able size g') ->
  (forall count offset buffer s, exists x, outcome_of size rest count offset buffer s x) ->
  exists x, outcome_of size r count offset buffer s x.
Proof.
  intros Nl Er Ht (e & He & HS) IH. assert (L0 : len l =? 0 = false) by (destruct l; [congruence|]; rewrite len_cons; pose proof (len_nonneg l); apply Z.eqb_neq; lia).
  assert (Lr : (length rest < length r)%nat) by (rewrite Er, app_length; destruct l; [congruence|cbn [length]; lia]).
  destruct (len (trim_crlf l) =? 0) eqn:T.
  - exists (s, Ok (offset + len l - len l, buffer ++ l)). intros g [|f] G E F; [lia|]. cbn [gparse_lines]. destruct (HS g G E) as (g' & -> & X2 & X3). cbv zeta. exists g'. split.
    + destruct He as [-> | ->]; [rewrite T; reflexivity|rewrite L0, T; reflexivity].
    + intros _. split; [exact X3|]. rewrite X2. apply Ht. apply Z.eqb_eq in T. destruct (trim_crlf l) as [|y b]; [reflexivity|]. rewrite len_cons in T. pose proof (len_nonneg b). lia.
  - destruct (if count =? 0 then parse_first_line (trim_crlf l) s else parse_header (trim_crlf l) s) as [s1 [u|x| |]] eqn:P.
    + destruct (IH (count + 1) (offset + len l) (buffer ++ l) s1) as [x Hx]. exists x. intros g [|f] G E F; [lia|]. cbn [gparse_lines]. destruct (HS g G E) as (g' & -> & X2 & X3). cbv zeta.
      destruct (Hx g' f X3 X2 ltac:(lia)) as (h & Y1 & Y2). exists h. split; [|exact Y2]. destruct He as [-> | ->]; [|rewrite L0]; rewrite T, P; exact Y1.
    + exists (s1, Err x). intros g [|f] G E F; [lia|]. cbn [gparse_lines]. destruct (HS g G E) as (g' & -> & X2 & X3). cbv zeta. exists g'. split; [|intros [a A]; discriminate A]. destruct He as [-> | ->]; [|rewrite L0]; rewrite T, P; reflexivity.
    + exists (s1, Panic). intros g [|f] G E F; [lia|]. cbn [gparse_lines]. destruct (HS g G E) as (g' & -> & X2 & X3). cbv zeta. exists g'. split; [|intros [a A]; discriminate A]. destruct He as [-> | ->]; [|rewrite L0]; rewrite T, P; reflexivity.
    + exists (s1, OutOfFuel). intros g [|f] G E F; [lia|]. cbn [gparse_lines]. destruct (HS g G E) as (g' & -> & X2 & X3). cbv zeta. exists g'. split; [|intros [a A]; discriminate A]. destruct He as [-> | ->]; [|rewrite L0]; rewrite T, P; reflexivity.
Qed.
Lemma lines_outcome size r ls used tail : begins size r ls used tail -> without [10] tail -> len tail = size -> 0 < size ->
  forall count offset buffer s, exists x, outcome_of size r count offset buffer s x.
Proof.
  induction 1 as [r|r l t rest ls used tail N B Nt Hb IH]; intros W L Hz count offset buffer s.
  - apply (line_outcome size r r []); [intros ->; change (len (@nil Z)) with 0 in L; lia|rewrite app_nil_r; reflexivity|reflexivity| |].
    + exists (Some EEof). split; [right; reflexivity|]. intros g G E. apply slice_last; [exact W|lia|exact G|exact E].
    + intros c o b s0. exists (s0, Ok (o, b)). intros g [|f] G E F; [lia|]. cbn [gparse_lines].
      destruct (slice_last size [] g ltac:(constructor) ltac:(change (len (@nil Z)) with 0; lia) G E) as (g' & -> & X2 & X3). exists g'. split; [reflexivity|]. intros _. split; assumption.
  - apply (line_outcome size r l rest); [apply N|apply N| | |apply IH; assumption].
    + intros T. apply bare_iff in B. congruence.
    + exact (slice_next _ _ _ _ N).
Qed.
Lemma body_able size n g f : able size g -> gb_rest g = [] -> snd (gbody_loop (S f) n [] g) = Ok [].
Proof.
  intros ((T & G2 & G3 & G4) & _) E. unfold gb_rest in E. apply app_eq_nil in E as [E1 E2]. apply no_bytes in E2; [|exact G2]. cbn [gbody_loop]. destruct (n <=? 0); [reflexivity|].
  assert (R : snd (gread 4096 g) = ([], Some EEof)).
  { unfold gread. rewrite E1. destruct (gb_err g) as [x|]; [destruct G4 as [-> _]; reflexivity|]. unfold src_get. rewrite E2, G3. destruct (4096 >=? gb_size g); reflexivity. }
  destruct (gread 4096 g) as [c [d e]]. cbn [snd] in R. injection R as -> ->. reflexivity.
Qed.
Lemma parse_full size r ls used tail s : begins size r ls used tail -> without [10] tail -> len tail = size -> 0 < size ->
  exists x, forall g, able size g -> gb_rest g = r -> snd (gparse g s) = x.
Proof.
  intros B W L Hz. destruct (lines_outcome _ _ _ _ _ B W L Hz 0 0 [] s) as [[s1 r1] Hx].
  assert (K : forall g, able size g -> gb_rest g = r -> exists h, gparse_lines (gfuel g) g 0 0 [] s = (h, (s1, r1)) /\ ((exists a, r1 = Ok a) -> able size h /\ gb_rest h = [])).
  { intros g G E. apply (Hx g (gfuel g) G E). unfold gfuel. rewrite E. lia. }
  destruct r1 as [[offset buffer]|e| |].
  - destruct (fill_header s1) as [s2 [u|e| |]] eqn:FH.
    + destruct (get_content_length (s_headers s2)) as [n|e| |] eqn:CL.
      * exists (with_layer (take (buffer ++ []) offset) (drop (buffer ++ []) offset) s2, Ok tt). intros g G E. destruct (K g G E) as (h & K1 & K2). destruct (K2 (ex_intro _ _ eq_refl)) as (K3 & K4).
        unfold gparse. rewrite K1, FH. unfold gfill_body. rewrite CL. pose proof (body_able size (n - (len buffer - offset)) h (2 + length (gb_rest h) + length (c_chunks (gb_src h))) K3 K4) as X.
        change (gfuel h) with (S (2 + length (gb_rest h) + length (c_chunks (gb_src h)))). destruct (gbody_loop _ _ [] h) as [h' y]. cbn [snd] in X. subst y. reflexivity.
      * exists (s2, Err EOther). intros g G E. destruct (K g G E) as (h & K1 & _). unfold gparse. rewrite K1, FH. unfold gfill_body. rewrite CL. reflexivity.
      * exists (s2, Err EOther). intros g G E. destruct (K g G E) as (h & K1 & _). unfold gparse. rewrite K1, FH. unfold gfill_body. rewrite CL. reflexivity.
      * exists (s2, Err EOther). intros g G E. destruct (K g G E) as (h & K1 & _). unfold gparse. rewrite K1, FH. unfold gfill_body. rewrite CL. reflexivity.
    + eexists. intros g G E. destruct (K g G E) as (h & K1 & _). unfold gparse. rewrite K1, FH. cbn [snd]. reflexivity.
    + eexists. intros g G E. destruct (K g G E) as (h & K1 & _). unfold gparse. rewrite K1, FH. cbn [snd]. reflexivity.
    + eexists. intros g G E. destruct (K g G E) as (h & K1 & _). unfold gparse. rewrite K1, FH. cbn [snd]. reflexivity.
  - eexists. intros g G E. destruct (K g G E) as (h & K1 & _). unfold gparse. rewrite K1. cbn [snd]. reflexivity.
  - eexists. intros g G E. destruct (K g G E) as (h & K1 & _). unfold gparse. rewrite K1. cbn [snd]. reflexivity.
  - eexists. intros g G E. destruct (K g G E) as (h & K1 & _). unfold gparse. rewrite K1. cbn [snd]. reflexivity.
Qed.

(** * When it does not *)
Lemma slice_keeps f : forall g g' line e, ends_well g -> (slice_meas g < f)%nat -> gread_slice f g = (g', Ok (line, e)) -> ~ bad e -> ends_well g'.
Proof.
  induction f as [|f IH]; intros g g' line e G M E NB; [lia|]. cbn [gread_slice] in E. pose proof G as ([T1 T2] & G2 & G3 & G4). destruct (cut 10 (gb_buf g)) as [[l rest]|] eqn:C.
  - injection E as <- <- <-. apply cut_some in C as [C _]. rewrite C, len_app, len_cons in T2. pose proof (len_nonneg l). split; [split; cbn [gb_size gb_buf]; lia|]. cbn [gb_src gb_err gb_buf]. split; [exact G2|]. split; [exact G3|].
    destruct (gb_err g); [exact G4|]. intros W X. specialize (G4 W X). rewrite C in G4. destruct l; discriminate.
  - assert (Z0 : ends_well (mkG [] None (gb_src g) (gb_size g))).
    { split; [split; cbn [gb_size gb_buf]; [lia|change (len (@nil Z)) with 0; lia]|]. cbn [gb_src gb_err gb_buf]. split; [exact G2|]. split; [exact G3|]. auto. }
    destruct (gb_err g) as [x|] eqn:N; [injection E as <- _ _; exact Z0|]. destruct (len (gb_buf g) >=? gb_size g) eqn:L; [injection E as <- _ _; exact Z0|].
    rewrite Z.geb_leb in L. apply Z.leb_gt in L. destruct (fill_ends 99 g G N L) as (K1 & K2 & K3 & K4 & K5). eapply IH; [exact K1| |exact E|exact NB].
    destruct (gb_err (fill 100 g)) eqn:N'; [unfold slice_meas; rewrite N'; unfold slice_meas in M; rewrite N in M; lia|]. specialize (K5 eq_refl). lia.
Qed.
Lemma slice_bad f1 : forall f2 b1 b2 b1' line e, with_eof b1 b2 -> ends_well b1 -> ends_well b2 -> (slice_meas b1 < f1)%nat -> (slice_meas b2 < f2)%nat ->
  gread_slice f1 b1 = (b1', Ok (line, e)) -> bad e ->
  (exists b2', gread_slice f2 b2 = (b2', Ok (line, e))) \/ (Forall (fun x => x <> 10) (gb_rest b1) /\ len (gb_rest b1) = gb_size b1).
Proof.
  induction f1 as [|f1 IH]; intros [|f2] b1 b2 b1' line e R G1 G2 M1 M2 E B; try lia. pose proof R as (H1 & H2 & H4). cbn [gread_slice] in *. rewrite H1. destruct (cut 10 (gb_buf b1)) as [[l rest]|] eqn:C.
  - injection E as <- <- <-. contradiction.
  - destruct (gb_err b1) as [x|] eqn:N1.
    { exfalso. destruct H4 as [(cs & X & _)|((w & _ & [X|X]) & _)]; try congruence. assert (x = EEof) by congruence. subst x. injection E as _ _ <-. exact B. }
    destruct (len (gb_buf b1) >=? gb_size b1) eqn:L.
    + injection E as <- <- <-. destruct (gb_err b2) as [y|] eqn:N2.
      * right. destruct H4 as [(cs & _ & X & _)|((w & S & _) & _)]; [congruence|]. unfold gb_rest. rewrite S. cbn [c_chunks concat]. rewrite app_nil_r. split; [apply cut_none_inv; exact C|].
        destruct G1 as ([_ T] & _). rewrite Z.geb_leb in L. apply Z.leb_le in L. lia.
      * left. rewrite H2, L. eexists. reflexivity.
    + pose proof L as L'. rewrite Z.geb_leb in L'. apply Z.leb_gt in L'. destruct (fill_ends 99 b1 G1 N1 L') as (K1 & K2 & K3 & K4 & K5).
      assert (M1' : (slice_meas (fill 100 b1) < f1)%nat).
      { destruct (gb_err (fill 100 b1)) eqn:N'; [unfold slice_meas; rewrite N'; unfold slice_meas in M1; rewrite N1 in M1; lia|]. specialize (K5 eq_refl). lia. }
      destruct H4 as [(cs & _ & N2 & S1 & S2)|((w & S & _) & _)].
      * rewrite N2, H2, L. assert (L2 : len (gb_buf b2) < gb_size b2) by congruence. destruct (fill_ends 99 b2 G2 N2 L2) as (Q1 & Q2 & Q3 & Q4 & Q5).
        assert (M2' : (slice_meas (fill 100 b2) < f2)%nat).
        { destruct (gb_err (fill 100 b2)) eqn:N'; [unfold slice_meas; rewrite N'; unfold slice_meas in M2; rewrite N2 in M2; lia|]. specialize (Q5 eq_refl). lia. }
        destruct (fill_with 100 b1 b2 cs H1 H2 S1 S2) as [[X _]|X].
        -- exfalso. destruct K1 as (_ & _ & _ & K1). destruct (gb_err (fill 100 b1)) as [x|]; [destruct K1 as [-> _]; exact X|exact X].
        -- rewrite <- K2, <- K3. eapply IH; eassumption.
      * exfalso. destruct f1 as [|f1]; [lia|]. rewrite (fill_dry 99 b1 w S) in E. cbn [gread_slice gb_buf gb_err] in E. rewrite C in E. injection E as _ _ <-. exact B.
Qed.
(** A last line that fills the buffer comes up. *)
Definition fills (size : Z) (r : bytes) : Prop := exists ls used tail, begins size r ls used tail /\ without [10] tail /\ len tail = size.
Lemma lf_without (s : bytes) : Forall (fun x => x <> 10) s -> without [10] s.
Proof. intros H. eapply Forall_impl; [|exact H]. intros x Hx [K|[]]. apply Hx. symmetry. exact K. Qed.
Lemma slice_is_line g g' l e : ends_well g -> gread_slice (gfuel g) g = (g', Ok (l, e)) -> ~ bad e -> l <> [] -> gb_size g' = gb_size g /\ (next_line (gb_size g) (gb_rest g) l (gb_rest g') \/ (without [10] l /\ gb_rest g = l /\ len l = gb_size g)).
Proof.
  intros G E NB Nl. pose proof G as (T & _). destruct (gread_slice_spec (gfuel g) g T (gfuel_slice g)) as (h & line & e' & E' & T' & S' & R' & _ & _). rewrite E in E'. injection E' as <- <- <-. split; [exact S'|].
  assert (K : forall f g g' l e, ends_well g -> (slice_meas g < f)%nat -> gread_slice f g = (g', Ok (l, e)) -> ~ bad e ->
    (exists u, l = u ++ [10] /\ Forall (fun x => x <> 10) u) /\ len l <= gb_size g \/ Forall (fun x => x <> 10) l /\ gb_rest g' = [] /\ len l <= gb_size g).
  { clear. induction f as [|f IH]; intros g g' l e G M E NB; [lia|]. cbn [gread_slice] in E. pose proof G as ([T1 T2] & G2 & G3 & G4). destruct (cut 10 (gb_buf g)) as [[a rest]|] eqn:C.
    - injection E as <- <- <-. apply cut_some in C as [C F]. left. split; [exists a; split; [reflexivity|exact F]|]. rewrite C, len_app, len_cons in T2. rewrite len_app. change (len [10]) with 1. pose proof (len_nonneg rest). lia.
    - destruct (gb_err g) as [x|] eqn:N.
      + injection E as <- <- <-. right. split; [apply cut_none_inv; exact C|]. split; [|exact T2]. unfold gb_rest. cbn [gb_buf gb_src app]. destruct G4 as [_ ->]. reflexivity.
      + destruct (len (gb_buf g) >=? gb_size g) eqn:L; [injection E as _ _ <-; elim NB; exact I|]. rewrite Z.geb_leb in L. apply Z.leb_gt in L. destruct (fill_ends 99 g G N L) as (K1 & K2 & K3 & K4 & K5). rewrite <- K3. eapply IH; [exact K1| |exact E|exact NB].
        destruct (gb_err (fill 100 g)) eqn:N'; [unfold slice_meas; rewrite N'; unfold slice_meas in M; rewrite N in M; lia|]. specialize (K5 eq_refl). lia. }
  destruct (K (gfuel g) g g' l e G (gfuel_slice g) E NB) as [[(u & -> & F) L]|(F & R0 & L)].
  - left. split; [exact R'|]. split; [exact Nl|]. left. split; [|exact L]. exists u. split; [reflexivity|apply lf_without, F].
  - rewrite R0 in *. destruct (Z.eq_dec (len l) (gb_size g)) as [X|X]; [right|left].
    + split; [apply lf_without, F|]. split; [rewrite R', app_nil_r; reflexivity|exact X].
    + split; [exact R'|]. split; [exact Nl|]. right. split; [apply lf_without, F|]. split; [reflexivity|lia].
Qed.
Lemma lines_agree f1 : forall f2 b1 b2 count offset buffer s, with_eof b1 b2 -> ends_well b1 -> ends_well b2 -> (length (gb_rest b1) < f1)%nat -> (length (gb_rest b2) < f2)%nat ->
  (exists b1' b2' x, gparse_lines f1 b1 count offset buffer s = (b1', x) /\ gparse_lines f2 b2 count offset buffer s = (b2', x) /\ ((exists a, snd x = Ok a) -> with_eof b1' b2' /\ ends_well b1' /\ ends_well b2')) \/
  fills (gb_size b1) (gb_rest b1).
Proof.
  induction f1 as [|f1 IH]; intros [|f2] b1 b2 count offset buffer s R G1 G2 F1 F2; try lia. cbn [gparse_lines]. pose proof G1 as (T1 & _). pose proof G2 as (T2 & _).
  destruct (gread_slice_spec (gfuel b1) b1 T1 (gfuel_slice b1)) as (c1 & line & e & E1 & U1 & V1 & W1 & _ & X1). rewrite E1.
  assert (DB : bad e \/ ~ bad e) by (destruct e as [[]|]; cbn; tauto). destruct DB as [B|NB].
  - destruct (slice_bad (gfuel b1) (gfuel b2) b1 b2 c1 line e R G1 G2 (gfuel_slice b1) (gfuel_slice b2) E1 B) as [(c2 & ->)|[L1 L2]].
    + left. cbv zeta. destruct e as [[]|]; try contradiction; do 3 eexists; (split; [reflexivity|]); (split; [reflexivity|]); intros [a A]; discriminate A.
    + right. exists [], [], (gb_rest b1). split; [constructor|]. split; [apply lf_without, L1|exact L2].
  - destruct (slice_with (gfuel b1) (gfuel b2) b1 b2 c1 line e R T1 T2 (gfuel_slice b1) (gfuel_slice b2) E1 NB) as (c2 & E2 & R'). rewrite E2.
    pose proof (slice_keeps _ _ _ _ _ G1 (gfuel_slice b1) E1 NB) as G1'. pose proof (slice_keeps _ _ _ _ _ G2 (gfuel_slice b2) E2 NB) as G2'.
    destruct (gread_slice_spec (gfuel b2) b2 T2 (gfuel_slice b2)) as (c2' & line' & e' & E2' & _ & _ & W2 & _ & _). rewrite E2 in E2'. injection E2' as <- <- <-.
    assert (GO : line <> [] -> forall k1 k2,
      k1 = (if len (trim_crlf line) =? 0 then (c1, (s, Ok (offset + len line - len line, buffer ++ line))) else
              match (if count =? 0 then parse_first_line (trim_crlf line) s else parse_header (trim_crlf line) s) with
              | (s', Ok _) => gparse_lines f1 c1 (count + 1) (offset + len line) (buffer ++ line) s'
              | (s', Err e) => (c1, (s', Err e))
              | (s', Panic) => (c1, (s', Panic))
              | (s', OutOfFuel) => (c1, (s', OutOfFuel))
              end) ->
      k2 = (if len (trim_crlf line) =? 0 then (c2, (s, Ok (offset + len line - len line, buffer ++ line))) else
              match (if count =? 0 then parse_first_line (trim_crlf line) s else parse_header (trim_crlf line) s) with
              | (s', Ok _) => gparse_lines f2 c2 (count + 1) (offset + len line) (buffer ++ line) s'
              | (s', Err e) => (c2, (s', Err e))
              | (s', Panic) => (c2, (s', Panic))
              | (s', OutOfFuel) => (c2, (s', OutOfFuel))
              end) ->
      (exists b1' b2' x, k1 = (b1', x) /\ k2 = (b2', x) /\ ((exists a, snd x = Ok a) -> with_eof b1' b2' /\ ends_well b1' /\ ends_well b2')) \/ fills (gb_size b1) (gb_rest b1)).
    { intros Hl k1 k2 -> ->. destruct (len (trim_crlf line) =? 0) eqn:TL; [left; do 3 eexists; split; [reflexivity|]; split; [reflexivity|]; intros _; auto|].
      destruct (if count =? 0 then parse_first_line (trim_crlf line) s else parse_header (trim_crlf line) s) as [s1 [u|x| |]];
        try (left; do 3 eexists; split; [reflexivity|]; split; [reflexivity|]; intros [a A]; discriminate A).
      pose proof W1 as W1'. apply (f_equal (@length Z)) in W1, W2. rewrite app_length in W1, W2. assert (0 < length line)%nat by (destruct line; [congruence|cbn [length]; lia]).
      destruct (IH f2 c1 c2 (count + 1) (offset + len line) (buffer ++ line) s1 R' G1' G2' ltac:(lia) ltac:(lia)) as [Y|(ls & used & tail & Y1 & Y2)]; [left; exact Y|right].
      destruct (slice_is_line b1 c1 line e G1 E1 NB Hl) as [Sz [NL|(Z1 & Z2 & Z3)]].
      - exists (trim_crlf line :: ls), (line ++ used), tail. rewrite Sz in *. split; [|exact Y2]. eapply B_line; [exact NL|apply bare_iff; reflexivity| |exact Y1]. intros X. rewrite X in TL. discriminate.
      - exists [], [], line. rewrite Z2. split; [constructor|]. split; assumption. }
    cbv zeta. destruct e as [[]|]; try (elim NB; exact I).
    + destruct (len line =? 0) eqn:L0; [left; do 3 eexists; split; [reflexivity|]; split; [reflexivity|]; intros _; auto|]. eapply GO; [|reflexivity|reflexivity]. intros ->. discriminate.
    + eapply GO; [apply X1; reflexivity|reflexivity|reflexivity].
Qed.
Lemma body_total f : forall size body g, ends_well g -> (body_meas g < f)%nat -> exists g' x, gbody_loop f size body g = (g', Ok x).
Proof.
  induction f as [|f IH]; intros size body g G F; [lia|]. cbn [gbody_loop]. destruct (size <=? 0); [eauto|]. pose proof G as (T & G2 & G3 & G4). pose proof (gread_spec 4096 g ltac:(lia) T) as S.
  assert (K : let '(g', (d, e)) := gread 4096 g in (e = Some EEof) \/ (e = None /\ ends_well g')).
  { unfold gread in *. destruct (gb_buf g) as [|y b] eqn:B.
    - destruct (gb_err g) as [x|]; [left; destruct G4 as [-> _]; reflexivity|]. destruct (4096 >=? gb_size g).
      + destruct (get_ends 4096 (gb_src g) ltac:(lia) G2 G3) as (d & cs & e & E & P1 & P2 & P3 & P4). rewrite E in *. destruct e as [e|]; [left; destruct P4 as [-> _]; reflexivity|right]. split; [reflexivity|].
        split; [apply S|]. cbn [gb_src gb_err gb_buf c_chunks c_err]. split; [exact P1|]. auto.
      + destruct (get_ends (gb_size g) (gb_src g) ltac:(apply T) G2 G3) as (d & cs & e & E & P1 & P2 & P3 & P4). rewrite E in *. destruct d as [|z d].
        * destruct e as [e|]; [left; destruct P4 as [-> _]; reflexivity|]. destruct P4 as [P4 _]. congruence.
        * right. split; [reflexivity|]. split; [apply S|]. cbn [gb_src gb_err gb_buf c_chunks c_err c_with]. split; [exact P1|]. split; [reflexivity|]. destruct e as [e|]; [destruct P4 as (-> & -> & _); auto|].
          destruct P4 as (_ & P4 & _). intros W X. elim (P4 W X).
    - right. split; [reflexivity|]. split; [apply S|]. cbn [gb_src gb_err gb_buf]. split; [exact G2|]. split; [exact G3|]. destruct (gb_err g); [exact G4|]. intros W X. specialize (G4 W X). discriminate. }
  destruct (gread 4096 g) as [g' [d e]]. destruct K as [-> |[-> K]]; [eauto|]. destruct S as (_ & _ & _ & S). specialize (S eq_refl). apply IH; [exact K|lia].
Qed.
Lemma parse_agree cs size s : 0 < size -> Forall something cs -> ~ fills size (concat cs) ->
  snd (gparse (greader cs EEof true size) s) = snd (gparse (greader cs EEof false size) s).
Proof.
  intros Hs F NF. assert (G : forall w, ends_well (greader cs EEof w size)) by (intros w; split; [split; cbn; [lia|change (len (@nil Z)) with 0; lia]|]; cbn; auto).
  unfold gparse. set (b1 := greader cs EEof false size) in *. set (b2 := greader cs EEof true size) in *.
  assert (R : with_eof b1 b2) by (split; [reflexivity|]; split; [reflexivity|]; left; exists cs; repeat split).
  destruct (lines_agree (gfuel b1) (gfuel b2) b1 b2 0 0 [] s R (G false) (G true) ltac:(unfold gfuel; lia) ltac:(unfold gfuel; lia)) as [(c1 & c2 & [s1 r1] & -> & -> & K)|X]; [|contradiction].
  destruct r1 as [[offset buffer]|e| |]; try reflexivity. destruct (K (ex_intro _ _ eq_refl)) as (R' & G1 & G2). destruct (fill_header s1) as [s2 [u|e| |]]; try reflexivity.
  unfold gfill_body. destruct (get_content_length (s_headers s2)) as [n|e| |]; try reflexivity.
  assert (M1 : (body_meas c1 < gfuel c1)%nat) by (unfold body_meas, gfuel; lia). assert (M2 : (body_meas c2 < gfuel c2)%nat) by (unfold body_meas, gfuel; lia).
  destruct (body_total (gfuel c1) (n - (len buffer - offset)) [] c1 G1 M1) as (d1 & x & E1).
  destruct (body_with (gfuel c1) (gfuel c2) _ [] c1 c2 d1 x R' (proj1 G1) (proj1 G2) M1 M2 E1) as (d2 & E2). rewrite E1, E2. reflexivity.
Qed.
