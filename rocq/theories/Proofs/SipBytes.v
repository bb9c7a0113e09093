(** Proofs for C186. *)
From Coq Require Import String.
From Verif Require Import Base.Go Base.GoFacts Base.IO Base.Text Model.Sip Spec.Sip Spec.SipLine Proofs.Text Proofs.Sip Proofs.SipMsg Proofs.SipRead Proofs.SipParse Proofs.SipMore Proofs.SipHeaders Proofs.SipLine Proofs.SipAddr Spec.SipAddr Spec.SipWhole Proofs.SipWhole Spec.SipAgain Proofs.SipAgain Spec.SipBytes.
Import ListNotations. Local Open Scope list_scope. Local Open Scope Z_scope.
Local Ltac Zify.zify_post_hook ::= Z.div_mod_to_equations.

(** The reader over one block: what it has yet to hand out, and how much of it is in the buffer. *)
Definition at_ (b : bufr) (r : bytes) (k : Z) : Prop :=
  bf_buf b = take r k /\ (bf_src b = [drop r k] \/ bf_src b = [] /\ k = len r) /\ 0 <= k <= len r /\ k <= 4096 /\ bf_eof b = false /\ bf_size b = 4096.
Lemma take_nil n : take (@nil Z) n = [].
Proof. unfold take. now rewrite firstn_nil. Qed.
Lemma take_all (l : bytes) n : len l <= n -> take l n = l.
Proof. unfold take, len. intros H. apply firstn_all2. lia. Qed.
Lemma drop_all (l : bytes) n : len l <= n -> drop l n = [].
Proof. unfold drop, len. intros H. apply skipn_all2. lia. Qed.
Lemma take_split (l : bytes) a b : 0 <= a -> 0 <= b -> take l (a + b) = take l a ++ take (drop l a) b.
Proof.
  intros Ha Hb. unfold take, drop. rewrite Z2Nat.inj_add by lia. generalize (Z.to_nat a) (Z.to_nat b). clear. intros a b. revert l. induction a as [|a IH]; intros l; [reflexivity|].
  destruct l as [|x l]; [now rewrite ?skipn_nil, !firstn_nil|]. cbn [Nat.add firstn skipn app]. now rewrite IH.
Qed.
Lemma drop_split (l : bytes) a b : 0 <= a -> 0 <= b -> drop l (a + b) = drop (drop l a) b.
Proof.
  intros Ha Hb. unfold drop. rewrite Z2Nat.inj_add by lia. generalize (Z.to_nat a) (Z.to_nat b). clear. intros a b. revert l. induction a as [|a IH]; intros l; [reflexivity|].
  destruct l as [|x l]; [now rewrite ?skipn_nil|]. cbn [Nat.add skipn]. now rewrite IH.
Qed.
Lemma len_drop' (l : bytes) n : 0 <= n <= len l -> len (drop l n) = len l - n.
Proof. unfold len, drop. intros H. rewrite skipn_length. lia. Qed.
Lemma take_0 (l : bytes) : take l 0 = [].
Proof. reflexivity. Qed.
Lemma drop_0 (l : bytes) : drop l 0 = l.
Proof. reflexivity. Qed.
Lemma at_nil : at_ (mkB [] false [] 4096) [] 0.
Proof. unfold at_. cbn [bf_buf bf_src bf_eof bf_size]. change (len (@nil Z)) with 0. repeat split; try lia. now right. Qed.
Lemma at_src r : at_ (mkB [] false [r] 4096) r 0.
Proof. unfold at_. cbn [bf_buf bf_src bf_eof bf_size]. rewrite drop_0. pose proof (len_nonneg r). repeat split; try lia. now left. Qed.
Lemma at_rest b r k : at_ b r k -> bf_rest b = r.
Proof.
  intros (B & S & R & _). unfold bf_rest. rewrite B. destruct S as [S|[S E]]; rewrite S; cbn [concat]; rewrite app_nil_r; [apply take_drop|]. subst k. apply take_all. lia.
Qed.

(** * The body *)
Lemma taken_le need k : 0 <= k -> 0 <= taken need k.
Proof. intros H. unfold taken. destruct (need <=? 0) eqn:E; lia. Qed.
Lemma body_taken fuel : forall need body b r k, at_ b r k -> (length r < fuel)%nat ->
  exists b', body_loop fuel need body b = (b', Ok (body ++ take r (taken need k))) /\ bf_rest b' = drop r (taken need k).
Proof.
  induction fuel as [|f IH]; intros need body b r k H Hf; [lia|]. cbn [body_loop]. destruct (need <=? 0) eqn:En.
  - exists b. unfold taken. rewrite En. rewrite take_0, drop_0, app_nil_r. split; [reflexivity|]. now apply (at_rest _ _ k).
  - pose proof H as (B & S & R & K & E & Z4). unfold buf_read. destruct (Z.eq_dec k 0) as [->|Hk].
    + rewrite B, take_0, E, Z4. change (4096 >=? 4096) with true. cbv iota. assert (Sr : src_read 4096 (bf_src b) = if len r =? 0 then None else if len r <=? 4096 then Some (r, []) else Some (take r 4096, [drop r 4096])).
      { destruct S as [S|[S Er]]; rewrite S; [rewrite drop_0|rewrite <- Er; reflexivity]. cbn [src_read]. destruct r as [|x r]; [reflexivity|]. replace (len (x :: r) =? 0) with false by (rewrite len_cons; pose proof (len_nonneg r); lia). reflexivity. }
      rewrite Sr. destruct (len r =? 0) eqn:El; [|destruct (len r <=? 4096) eqn:El2].
      * destruct r as [|x r]; [|rewrite len_cons in El; pose proof (len_nonneg r); lia]. eexists. rewrite take_nil, app_nil_r. split; [reflexivity|]. unfold drop. now rewrite skipn_nil.
      * destruct (IH (need - len r) (body ++ r) (mkB [] false [] 4096) [] 0) as [b' [E1 E2]]; [exact at_nil| |].
        { destruct r; [discriminate|]. cbn [length] in *. lia. }
        exists b'. rewrite E1, take_nil, app_nil_r. assert (T : len r <= taken need 0) by (unfold taken; rewrite En; lia). rewrite (take_all r) by exact T. rewrite (drop_all r) by exact T. split; [reflexivity|]. rewrite E2. unfold drop. apply skipn_nil.
      * destruct (IH (need - len (take r 4096)) (body ++ take r 4096) (mkB [] false [drop r 4096] 4096) (drop r 4096) 0) as [b' [E1 E2]].
        { apply at_src. }
        { unfold drop. rewrite skipn_length. unfold len in El2. lia. }
        exists b'. rewrite E1. rewrite len_take by lia. assert (T : taken need 0 = 4096 + taken (need - 4096) 0) by (unfold taken; rewrite En; destruct (need - 4096 <=? 0) eqn:E4; lia).
        rewrite T, take_split, drop_split by (try lia; apply taken_le; lia). rewrite <- app_assoc. rewrite len_take in E2 by lia. split; [reflexivity|exact E2].
    + destruct (take r k) as [|x d] eqn:Ed; [exfalso; apply (f_equal (@length Z)) in Ed; unfold take in Ed; rewrite firstn_length in Ed; unfold len in R; cbn [length] in Ed; lia|]. rewrite B, <- Ed.
      assert (Lk : len (take r k) = k) by (apply len_take; lia). rewrite (take_all (take r k) 4096) by lia. rewrite (drop_all (take r k) 4096) by lia.
      destruct (IH (need - len (take r k)) (body ++ take r k) (mkB [] (bf_eof b) (bf_src b) (bf_size b)) (drop r k) 0) as [b' [E1 E2]].
      { rewrite E, Z4. destruct S as [S|[S Er]]; rewrite S; [apply at_src|]. rewrite (drop_all r) by lia. apply at_nil. }
      { unfold drop. rewrite skipn_length. unfold len in R. lia. }
      exists b'. rewrite Lk in *. rewrite E1. assert (T : taken need k = k + taken (need - k) 0) by (unfold taken; rewrite En; destruct (need - k <=? 0) eqn:E4; lia).
      rewrite T, take_split, drop_split by (try lia; apply taken_le; lia). rewrite <- app_assoc. split; [reflexivity|exact E2].
Qed.

(** * One line *)
Lemma cut_take_some u r' k : Forall (fun c => c <> 10) u -> len u + 1 <= k -> cut 10 (take (u ++ 10 :: r') k) = Some (u, take r' (k - (len u + 1))).
Proof.
  intros Hu Hk. replace (take (u ++ 10 :: r') k) with (u ++ 10 :: take r' (k - (len u + 1))); [now apply cut_app|].
  unfold take. rewrite firstn_app, (firstn_all2 u) by (unfold len in Hk; lia). f_equal. unfold len in *. replace (Z.to_nat k - length u)%nat with (S (Z.to_nat (k - (Z.of_nat (length u) + 1)))) by lia. reflexivity.
Qed.
Lemma drop_line l r' k : 0 <= k -> len l <= k -> drop (l ++ r') k = drop r' (k - len l).
Proof. intros H1 H2. unfold drop, len in *. rewrite skipn_app, (skipn_all2 l) by lia. cbn [app]. f_equal. lia. Qed.
Lemma slice_in fuel b l r' k : at_ b (l ++ r') k -> (exists u, l = u ++ [10] /\ Forall (fun c => c <> 10) u) -> len l <= k ->
  exists b', read_slice (S fuel) b = (b', Ok (l, false)) /\ at_ b' r' (k - len l).
Proof.
  intros (B & S & R & K & E & Z4) [u [-> Hu]] Hk. rewrite len_app in *. change (len [10]) with 1 in *. cbn [read_slice]. rewrite B, <- !app_assoc. cbn [app]. rewrite cut_take_some by (auto; lia).
  eexists. split; [reflexivity|]. rewrite len_app in R. change (len [10]) with 1 in R. unfold at_. cbn [bf_buf bf_src bf_eof bf_size]. pose proof (len_nonneg u). split; [reflexivity|]. split; [|repeat split; auto; lia].
  destruct S as [S|[S Er]]; [left; rewrite S; f_equal; rewrite drop_line by (rewrite ?len_app; change (len [10]) with 1; lia); rewrite len_app; reflexivity|right; split; [exact S|rewrite !len_app in Er; change (len [10]) with 1 in Er; lia]].
Qed.
Lemma src_none b r : at_ b r (len r) -> forall n, src_read n (bf_src b) = None.
Proof. intros (B & S & _) n. destruct S as [S|[S _]]; rewrite S; [rewrite drop_all by lia|]; reflexivity. Qed.
Lemma slice_end fuel b l : at_ b l (len l) -> Forall (fun c => c <> 10) l -> len l < 4096 -> exists b', read_slice (S (S fuel)) b = (b', Ok (l, true)) /\ at_ b' [] 0.
Proof.
  intros A W Hl. pose proof (src_none _ _ A) as Hn. destruct A as (B & S & R & K & E & Z4). cbn [read_slice]. rewrite B, (take_all l) by lia. rewrite cut_none by exact W. rewrite E, Z4. replace (len l >=? 4096) with false by lia. rewrite Hn.
  cbn [bf_buf bf_eof bf_src bf_size]. rewrite cut_none by exact W. eexists. split; [reflexivity|]. exact at_nil.
Qed.
Lemma forall_take (l : bytes) (P : Z -> Prop) n : Forall P l -> Forall P (take l n).
Proof. unfold take. intros H. rewrite <- (firstn_skipn (Z.to_nat n) l) in H. apply Forall_app in H. tauto. Qed.
Lemma slice_fill fuel b r k : at_ b r k -> k < len r -> k < 4096 -> Forall (fun c => c <> 10) (take r k) ->
  exists b', read_slice (S fuel) b = read_slice fuel b' /\ at_ b' r (Z.min 4096 (len r)).
Proof.
  intros (B & S & R & K & E & Z4) H1 H2 W. cbn [read_slice]. rewrite B, cut_none by exact W. rewrite E, Z4. rewrite len_take by lia. replace (k >=? 4096) with false by lia.
  destruct S as [S|[_ Er]]; [|lia]. rewrite S. cbn [src_read]. pose proof (len_drop' r k ltac:(lia)) as Ld. destruct (drop r k) as [|x d] eqn:Ed; [change (len (@nil Z)) with 0 in Ld; lia|]. rewrite <- Ed in *.
  destruct (len (drop r k) <=? 4096 - k) eqn:E2; eexists; (split; [reflexivity|]); unfold at_; cbn [bf_buf bf_src bf_eof bf_size].
  - rewrite take_drop. rewrite Z.min_r by lia. rewrite take_all by lia. repeat split; auto; lia.
  - rewrite Z.min_l by lia. assert (T : take r 4096 = take r k ++ take (drop r k) (4096 - k)) by (rewrite <- take_split by lia; f_equal; lia). assert (D : drop r 4096 = drop (drop r k) (4096 - k)) by (rewrite <- drop_split by lia; f_equal; lia). rewrite T, D. repeat split; auto; lia.
Qed.
Lemma slice_at fuel b r k l r' : at_ b r k -> next_line 4096 r l r' -> (2 < fuel)%nat ->
  exists b' e, read_slice fuel b = (b', Ok (l, e)) /\ at_ b' r' ((if len l <=? k then k else Z.min 4096 (len r)) - len l).
Proof.
  intros A (-> & Hl & C) Hf. destruct fuel as [|[|[|f]]]; try lia. pose proof A as (_ & _ & R & K & _). rewrite len_app in R. pose proof (len_nonneg r'). destruct C as [[[u [El Hu]] Hs]|[W [-> Hs]]].
  - assert (Hu' : Forall (fun c => c <> 10) u) by (apply wo_1; exact Hu). assert (X : exists u, l = u ++ [10] /\ Forall (fun c => c <> 10) u) by eauto.
    destruct (len l <=? k) eqn:E; [destruct (slice_in (S (S f)) _ _ _ _ A X ltac:(lia)) as [b' [E1 E2]]; eauto|].
    destruct (slice_fill (S (S f)) _ _ _ A) as [b1 [E1 A1]]; [rewrite len_app; lia|lia| |].
    { assert (T : take (l ++ r') k = take u k). { rewrite El. unfold take. rewrite <- app_assoc, firstn_app. rewrite El, len_app in E. change (len [10]) with 1 in E. unfold len in E. replace (Z.to_nat k - length u)%nat with O by lia. cbn [firstn]. apply app_nil_r. }
      rewrite T. now apply forall_take. }
    rewrite E1. destruct (slice_in (S f) _ _ _ _ A1 X ltac:(rewrite len_app; lia)) as [b' [E2 E3]]. eauto.
  - rewrite app_nil_r in *. apply wo_1 in W. change (len (@nil Z)) with 0 in R. destruct (len l <=? k) eqn:E.
    + assert (k = len l) by lia. subst k. destruct (slice_end (S f) _ _ A W Hs) as [b' [E1 E2]]. rewrite Z.sub_diag. eauto.
    + destruct (slice_fill (S (S f)) _ _ _ A) as [b1 [E1 A1]]; [lia|lia|now apply forall_take|]. rewrite E1. rewrite Z.min_r in * by lia. destruct (slice_end f _ _ A1 W Hs) as [b' [E2 E3]]. rewrite Z.sub_diag. eauto.
Qed.

(** * All lines *)
Lemma ahead_app r k r1 k1 r2 k2 : ahead r k r1 k1 -> ahead r1 k1 r2 k2 -> ahead r k r2 k2.
Proof. induction 1 as [|r k l r' r1 k1 N A IH]; [auto|]. intros H. econstructor; [eassumption|]. now apply IH. Qed.
Lemma run_at r ls used tail : begins 4096 r ls used tail -> forall fuel b k count off buf s s', at_ b r k -> 0 <= count -> (length r + 1 < fuel)%nat -> run_lines count ls s = (s', Ok tt) ->
  exists fuel' b' k' count', (length tail + 1 < fuel')%nat /\ at_ b' tail k' /\ ahead r k tail k' /\ parse_lines fuel b count off buf s = parse_lines fuel' b' count' (off + len used) (buf ++ used) s'.
Proof.
  induction 1 as [r|r l t rest ls used tail N Bt Ht B IH]; intros fuel b k count off buf s s' A Hc Hf; cbn [run_lines].
  - intros E. injection E as <-. exists fuel, b, k, count. rewrite app_nil_r. change (len (@nil Z)) with 0. rewrite Z.add_0_r. split; [assumption|]. split; [assumption|]. split; [constructor|reflexivity].
  - destruct (if count =? 0 then parse_first_line t s else parse_header t s) as [s1 [u|er| |]] eqn:F; try discriminate. intros Hr. destruct fuel as [|f]; [lia|]. cbn [parse_lines].
    assert (Hl : 0 < len l) by (destruct N as [_ [N _]]; destruct l; [congruence|rewrite len_cons; pose proof (len_nonneg l); lia]).
    destruct (slice_at (S (S (length (bf_rest b)))) _ _ _ _ _ A N) as [b1 [e [E1 A1]]]. { rewrite (at_rest _ _ _ A). destruct N as [-> _]. rewrite app_length. unfold len in Hl. lia. }
    rewrite E1. replace (e && (len l =? 0)) with false by (destruct e; cbn [andb]; [symmetry; apply Z.eqb_neq; lia|reflexivity]). apply bare_iff in Bt. rewrite Bt.
    replace (len t =? 0) with false by (destruct t; [congruence|rewrite len_cons; pose proof (len_nonneg t); symmetry; apply Z.eqb_neq; lia]). rewrite F.
    destruct (IH f b1 _ (count + 1) (off + len l) (buf ++ l) s1 s' A1 ltac:(lia)) as [f' [b' [k' [c' [L [A' [H' P]]]]]]]; [destruct N as [-> _]; rewrite app_length in Hf; unfold len in Hl; lia|exact Hr|].
    exists f', b', k', c'. split; [assumption|]. split; [assumption|]. split; [econstructor; eassumption|]. rewrite P, len_app, <- app_assoc. f_equal. lia.
Qed.
Lemma stop_at fuel tail eol rest b k count off buf x : at_ b tail k -> ends_here 4096 tail eol rest -> (length tail + 1 < fuel)%nat ->
  exists b' k', parse_lines fuel b count off buf x = (b', (x, Ok (off, buf ++ eol))) /\ at_ b' rest k' /\ ahead tail k rest k'.
Proof.
  intros A E Hf. destruct fuel as [|f]; [lia|]. cbn [parse_lines]. destruct E as [[-> [-> ->]]|[N B]].
  - assert (k = 0) by (destruct A as (_ & _ & R & _); change (len (@nil Z)) with 0 in R; lia). subst k. destruct (slice_end (length (bf_rest b)) b [] A ltac:(constructor) ltac:(reflexivity)) as [b' [E1 E2]]. rewrite E1. change (len (@nil Z) =? 0) with true. cbn [andb].
    exists b', 0. rewrite app_nil_r. split; [reflexivity|]. split; [exact E2|constructor].
  - assert (Hl : 0 < len eol) by (destruct N as [_ [N _]]; destruct eol as [|c eol]; [congruence|rewrite len_cons; pose proof (len_nonneg eol); lia]).
    destruct (slice_at (S (S (length (bf_rest b)))) _ _ _ _ _ A N) as [b1 [e [E1 A1]]]. { rewrite (at_rest _ _ _ A). destruct N as [-> _]. rewrite app_length. unfold len in Hl. lia. }
    rewrite E1. replace (e && (len eol =? 0)) with false by (destruct e; cbn [andb]; [symmetry; apply Z.eqb_neq; lia|reflexivity]). apply bare_iff in B. rewrite B. change (len (@nil Z) =? 0) with true. cbv iota.
    eexists b1, _. split; [replace (off + len eol - len eol) with off by lia; reflexivity|]. split; [exact A1|]. econstructor; [exact N|constructor].
Qed.
Lemma bytes_ok text s ls used tail eol rest y t m n : begins 4096 text ls used tail -> ends_here 4096 tail eol rest -> lines_into s ls y t m -> readable t -> numeral (first_of t (str "content-length")) n ->
  exists x k, ahead text 0 rest k /\ sip_parse_bytes text s = (x, Ok tt) /\ object_of y t m used (eol ++ take rest (taken (n - len eol) k)) x.
Proof.
  intros B E L T N. destruct (lines_run_into [] 1 s _ _ _ _ L) as [x0 [R H]]. unfold sip_parse_bytes, sip_parse. assert (A0 : at_ (new_reader text) text 0) by apply at_src.
  rewrite (at_rest _ _ _ A0). destruct (run_at _ _ _ _ B (S (S (length text))) _ _ 0 0 [] s x0 A0 ltac:(lia) ltac:(lia) R) as [f' [b1 [k1 [c1 [L1 [A1 [H1 P1]]]]]]].
  rewrite P1. destruct (stop_at f' tail eol rest b1 k1 c1 (0 + len used) ([] ++ used) x0 A1 E L1) as [b2 [k2 [P2 [A2 H2]]]]. rewrite P2.
  destruct (proj1 (fill_readable _ _ _ _ H) T) as [f [o [c [q [v [F [Tf [Tt [Tc [Tq Tv]]]]]]]]]]. rewrite F. unfold fill_body, get_content_length. cbn [with_common s_headers].
  rewrite (holds_first _ _ _ _ _ H). change (to_lower (str "content-length")) with (str "content-length"). rewrite (proj2 (atoi_iff _ _) N).
  cbn [app]. rewrite len_app. replace (n - (len used + len eol - (0 + len used))) with (n - len eol) by lia.
  destruct (body_taken (S (length (bf_rest b2))) (n - len eol) [] b2 rest k2 A2) as [b3 [P3 _]]; [rewrite (at_rest _ _ _ A2); lia|]. rewrite P3. cbn [app snd].
  eexists. exists k2. split; [eapply ahead_app; eassumption|]. split; [reflexivity|]. destruct H as [h [-> [M Hn]]].
  unfold object_of, stored. cbn [with_layer with_common with_last with_headers s_version s_method s_request s_isresp s_code s_status s_headers s_last s_from s_to s_contact s_cseq s_via s_contents s_payload].
  split; [auto 10|]. split; [exact M|]. split; [reflexivity|]. split; [eauto|]. split; [eauto|]. split; [eauto|]. split; [eauto|]. split; [eauto|]. change (0 + len used) with (len used).
  rewrite <- app_assoc, take_app, drop_app. auto.
Qed.
Lemma next_line_unique r l r' m m' : next_line 4096 r l r' -> next_line 4096 r m m' -> l = m /\ r' = m'.
Proof.
  intros N1 N2. destruct (next_line_of _ _ _ _ N1) as [e [E1 _]]. destruct (next_line_of _ _ _ _ N2) as [e' [E2 _]]. rewrite E1 in E2. injection E2 as -> _ ->. auto.
Qed.
Lemma ahead_length r k r' k' : ahead r k r' k' -> (length r' <= length r)%nat.
Proof. induction 1 as [|r k l r' r1 k1 N A IH]; [lia|]. destruct N as [-> _]. rewrite app_length. lia. Qed.
Lemma ahead_unique r k r' k1 : ahead r k r' k1 -> forall k2, ahead r k r' k2 -> k1 = k2.
Proof.
  assert (S : forall r l r', next_line 4096 r l r' -> (length r' < length r)%nat) by (intros r0 l r0' [-> [N _]]; rewrite app_length; destruct l; [congruence|cbn; lia]).
  induction 1 as [r k|r k l r' r1 k1 N A IH]; intros k2 H; inversion H as [r2 k3|r2 k3 l2 r2' rest k4 N2 A2]; subst; auto.
  - exfalso. apply S in N2. apply ahead_length in A2. lia.
  - exfalso. apply S in N. apply ahead_length in A. lia.
  - destruct (next_line_unique _ _ _ _ _ N N2) as [-> ->]. now apply IH.
Qed.
Lemma ahead_full r k r' k' : ahead r k r' k' -> len r <= 4096 -> k = len r -> k' = len r'.
Proof.
  induction 1 as [r k|r k l r' r1 k1 N A IH]; intros H1 H2; [auto|]. destruct N as [-> _]. rewrite len_app in *. pose proof (len_nonneg r'). pose proof (len_nonneg l). apply IH; [lia|]. replace (len l <=? k) with true by lia. lia.
Qed.
Lemma ahead_short r r' k' : ahead r 0 r' k' -> len r <= 4096 -> r' = r /\ k' = 0 \/ k' = len r'.
Proof.
  intros A H. inversion A as [r2 k3|r2 k3 l2 r2' rest k4 N2 A2]; subst; [auto|right]. destruct N2 as [-> [N _]]. rewrite len_app in *. pose proof (len_nonneg r2').
  assert (0 < len l2) by (destruct l2 as [|c l2]; [congruence|rewrite len_cons; pose proof (len_nonneg l2); lia]). apply (ahead_full _ _ _ _ A2); [lia|]. replace (len l2 <=? 0) with false by lia. lia.
Qed.
