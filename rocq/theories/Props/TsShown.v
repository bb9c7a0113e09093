(** C218: what a packet's Media shows after Mux and any later calls, exactly. *)
From Verif Require Import Base.Go Base.GoFacts Base.IO Model.AmfTypes Model.Packet Model.Parsers Model.Ts Model.TsAlias Spec.TsAlias Spec.TsShown
  Proofs.Parsers Proofs.TsPackets Proofs.TsMore Proofs.TsAlias Proofs.TsShare Proofs.TsShown Props.TsAlias.

(** The program of some calls, all packets owning their bytes. *)
Definition owned_after (os : list aop) : pworld := fst (prun pworld0 os).

Lemma owned_snoc os o : owned_after (os ++ [o]) = fst (pstep (owned_after os) o).
Proof.
  unfold owned_after. generalize pworld0. induction os as [|a os IH]; intros s; cbn [app prun].
  - cbn [fst]. destruct (pstep s o). reflexivity.
  - destruct (pstep s a) as [s1 r1]. specialize (IH s1). destruct (prun s1 (os ++ [o])), (prun s1 os). exact IH.
Qed.
Lemma run_owned pol os : forall s p st rest, inv s p st -> each_once st (os ++ rest) ->
  exists st', inv (fst (arun pol s os)) (fst (prun p os)) st' /\ each_once st' rest.
Proof.
  induction os as [|o os IH]; intros s p st rest HI HO; [exists st; split; assumption|]. cbn [app] in HO.
  destruct (astep_sim pol s p st o _ HI HO) as (s' & p' & st' & r & E & EP & HI' & HO'). destruct (IH s' p' st' rest HI' HO') as (st2 & H1 & H2).
  exists st2. cbn [arun prun]. rewrite E, EP. destruct (arun pol s' os), (prun p' os). split; assumption.
Qed.

(** What a Mux converts its packet to is what the packet shows when it returns. *)
Theorem C218_converted : forall pol os i k, single_use (os ++ [AMux i k]) -> snd (astep pol (after pol os) (AMux i k)) = Ok tt ->
  exists d, puts i (owned_after os) [AMux i k] = [d] /\ media_in (after pol (os ++ [AMux i k])) k = Some d.
Proof.
  intros pol os i k HS HR. destruct (run_owned pol os world0 pworld0 _ [AMux i k] inv0 HS) as (st & HI & HO). fold (after pol os) (owned_after os) in HI.
  rewrite after_snoc. destruct (astep pol (after pol os) (AMux i k)) as [s' r] eqn:E. cbn [fst snd] in *. subst r.
  destruct (first_mux pol _ _ st i k s' [] HI HO E) as (x & c & w' & b' & x' & EX & EC & EP & HH & _).
  pose proof HI as (_ & _ & _ & I4 & I5). specialize (I5 i). rewrite EX in I5. cbn [puts]. rewrite Nat.eqb_refl. destruct (pw_mixes (owned_after os) i) as [[y wr]|]; [|contradiction].
  destruct HO as [Hst _]. destruct (I4 k Hst) as [V _]. destruct I5 as [_ HX]. replace (x_codec (am_x x)) with (x_codec y) in EC by (symmetry; apply xeq_fields in HX; tauto).
  rewrite V in EC. rewrite EC. cbn [fst snd app]. exists (w_out w'). split; [reflexivity|]. unfold media_in. rewrite EP, upd_same. cbn [ap_media option_map]. f_equal. apply HH.
Qed.
Print Assumptions C218_converted.
Example C218_converted_ex : single_use (ex_two ++ [AMux 0 2]) /\ snd (astep twice (after twice ex_two) (AMux 0 2)) = Ok tt /\
  puts 0 (owned_after ex_two) [AMux 0 2] = [[255; 241; 80; 128; 1; 127; 252; 1; 2; 3; 4]].
Proof. split; [cbv; tauto|]. vm_compute. auto. Qed.

(** Whatever is called after a successful Mux, as long as its packet is neither assigned nor handed over again, the
    packet shows the bytes sent with those of the mixer's later Mux calls over them, in turn, until the first that has
    no room in the buffer the bytes lie in. Nothing else shows, whichever way that buffer grows. *)
Theorem C218_shown : forall pol os i k rest d, single_use (os ++ AMux i k :: rest) -> snd (astep pol (after pol os) (AMux i k)) = Ok tt ->
  media_in (after pol (os ++ [AMux i k])) k = Some d -> Forall (spares k) rest ->
  exists room e, len d <= room /\ media_in (after pol (os ++ AMux i k :: rest)) k = Some e /\
    shown room d (puts i (owned_after (os ++ [AMux i k])) rest) e.
Proof.
  intros pol os i k rest d HS HR HM HF. destruct (run_owned pol os world0 pworld0 _ (AMux i k :: rest) inv0 HS) as (st & HI & HO). fold (after pol os) (owned_after os) in HI.
  change (os ++ AMux i k :: rest) with (os ++ [AMux i k] ++ rest). rewrite app_assoc, (after_app pol (os ++ [AMux i k]) rest).
  rewrite after_snoc in HM |- *. rewrite owned_snoc. destruct (astep pol (after pol os) (AMux i k)) as [s' r] eqn:E. cbn [fst snd] in *. subst r.
  destruct (first_mux pol _ _ st i k s' rest HI HO E) as (x & c & w' & b' & x' & EX & EC & EP & HH & EX' & EB & _).
  destruct (astep_sim pol _ _ st _ rest HI HO) as (s2 & p' & st' & r & E2 & EP2 & HI' & HO'). rewrite E in E2. injection E2 as <- <-. rewrite EP2. cbn [fst].
  assert (EXI : wd_mixes s' i = Some x') by (rewrite EX', upd_same; reflexivity).
  destruct (holds_arr _ _ HH) as [L1 _]. cbn [fst snd] in L1. set (A := arr (wd_mem s') (b_arr b')) in *.
  assert (EA : ap_media (wd_pkts s' k) = Some (bbytes b')) by (rewrite EP, upd_same; reflexivity).
  assert (ED : take A (s_len (bbytes b')) = d) by (unfold media_in in HM; rewrite EA in HM; injection HM as HM; exact HM).
  assert (LB : s_len (bbytes b') = len (w_out w')) by apply HH. pose proof (len_nonneg (w_out w')) as NW.
  assert (AL : alone s' i (s_arr (bbytes b')) A).
  { split; [apply HH|]. split; [reflexivity|]. intros j t O. pose proof (owner_media s' i x' EXI) as Oi. rewrite EB in Oi. destruct HI' as (_ & J2 & _). destruct (J2 _ _ _ _ _ Oi O). auto. }
  destruct (shown_run pol i k (bbytes b') rest s' p' st' x' A HI' HO' EXI EA ltac:(rewrite EB; reflexivity) ltac:(lia) AL HF) as (e & E1 & E3).
  exists (len A), e. rewrite ED in E3. split; [rewrite <- ED, len_take by lia; lia|]. split; [exact E1|exact E3].
Qed.
Print Assumptions C218_shown.
(** Two shorter frames go over the first, while another mixer's does not; in the second case only the beginning of one
    that has no room does, and nothing of the one after it. *)
Definition ex_three : list aop := ex_two ++ [ASet 3 (ex_aac [9; 9]); ASet 4 (ex_aac [8]); ASet 5 (ex_aac (repeat 7 600)); ASet 6 (ex_aac [5; 5; 5; 5])].
Example C218_ex : let rest := [AMux 0 3; AMux 1 6; AMux 0 4] in
  single_use (ex_three ++ AMux 0 2 :: rest) /\ snd (astep twice (after twice ex_three) (AMux 0 2)) = Ok tt /\ Forall (spares 2) rest /\
  puts 0 (owned_after (ex_three ++ [AMux 0 2])) rest = [[255; 241; 80; 128; 1; 63; 252; 9; 9]; [255; 241; 80; 128; 1; 31; 252; 8]] /\
  media_in (after twice (ex_three ++ AMux 0 2 :: rest)) 2 = Some [255; 241; 80; 128; 1; 31; 252; 8; 9; 3; 4].
Proof. cbv zeta. split; [cbv; tauto|]. split; [vm_compute; reflexivity|]. split; [repeat constructor; cbn; congruence|]. vm_compute. auto. Qed.
Example C218_grown_ex : let rest := [AMux 0 3; AMux 0 5; AMux 0 6] in
  single_use (ex_three ++ AMux 0 2 :: rest) /\
  map (@len Z) (puts 0 (owned_after (ex_three ++ [AMux 0 2])) rest) = [9; 607; 11] /\
  media_in (after twice (ex_three ++ AMux 0 2 :: rest)) 2 = Some [255; 241; 80; 128; 75; 255; 252; 9; 9; 3; 4].
Proof. cbv zeta. split; [cbv; tauto|]. vm_compute. auto. Qed.

(** Where every later frame is no longer than the packet's bytes, they all go over it. *)
Theorem C218_no_longer : forall pol os i k rest d, single_use (os ++ AMux i k :: rest) -> snd (astep pol (after pol os) (AMux i k)) = Ok tt ->
  media_in (after pol (os ++ [AMux i k])) k = Some d -> Forall (spares k) rest ->
  Forall (fun w => len w <= len d) (puts i (owned_after (os ++ [AMux i k])) rest) ->
  media_in (after pol (os ++ AMux i k :: rest)) k = Some (fold_left over (puts i (owned_after (os ++ [AMux i k])) rest) d).
Proof.
  intros pol os i k rest d HS HR HM HF HL. destruct (C218_shown pol os i k rest d HS HR HM HF) as (room & e & L & -> & H). f_equal.
  induction H as [d|d w ws e H1 H2 IH|d w ws j H1 H2]; [reflexivity| |].
  - inversion HL as [|? ? L1 L2]; subst. cbn [fold_left]. revert L2 L IH. rewrite <- (over_len d w). intros L2 L IH. clear HM. 
    assert (Q : forall d2, len d2 <= room -> shown room d2 ws e -> Forall (fun w => len w <= len d2) ws -> e = fold_left over ws d2).
    { clear. intros d2 L H. induction H as [d|d w ws e H1 H2 IH|d w ws j H1 H2]; intros F; [reflexivity| |inversion F; subst; lia].
      inversion F as [|? ? F1 F2]; subst. cbn [fold_left]. apply IH; rewrite over_len; assumption. }
    apply Q; assumption.
  - inversion HL as [|? ? L1 L2]; subst. lia.
Qed.
Print Assumptions C218_no_longer.
Example C218_no_longer_ex : Forall (fun w => len w <= len [255; 241; 80; 128; 1; 127; 252; 1; 2; 3; 4]) (puts 0 (owned_after (ex_three ++ [AMux 0 2])) [AMux 0 3; AMux 1 6; AMux 0 4]).
Proof. vm_compute. repeat constructor; congruence. Qed.

(** Every byte it shows is the one sent at that place, or one a later Mux of the same mixer converted to at that place:
    as many bytes as were sent, none of them from another mixer or another place. *)
Theorem C218_places : forall pol os i k rest d, single_use (os ++ AMux i k :: rest) -> snd (astep pol (after pol os) (AMux i k)) = Ok tt ->
  media_in (after pol (os ++ [AMux i k])) k = Some d -> Forall (spares k) rest ->
  exists e, media_in (after pol (os ++ AMux i k :: rest)) k = Some e /\ len e = len d /\
    forall n b, nth_error e n = Some b ->
      nth_error d n = Some b \/ exists w, In w (puts i (owned_after (os ++ [AMux i k])) rest) /\ nth_error w n = Some b.
Proof.
  intros pol os i k rest d HS HR HM HF. destruct (C218_shown pol os i k rest d HS HR HM HF) as (room & e & _ & -> & H). exists e. split; [reflexivity|]. clear - H.
  assert (FI : forall (l : bytes) m n b, nth_error (firstn m l) n = Some b -> nth_error l n = Some b).
  { induction l as [|c l IH]; intros [|m] [|n] b; cbn; try discriminate; auto. apply IH. }
  assert (SK : forall (l : bytes) m n, nth_error (skipn m l) n = nth_error l (m + n)).
  { induction l as [|c l IH]; intros [|m] n; cbn; auto. destruct n; reflexivity. }
  assert (OV : forall d w n b, nth_error (over d w) n = Some b -> nth_error d n = Some b \/ nth_error w n = Some b).
  { intros d0 w n b. unfold over, take, drop. destruct (Nat.lt_ge_cases n (length (firstn (Z.to_nat (len d0)) w))) as [L|L].
    - rewrite nth_error_app1 by exact L. intros X. right. exact (FI _ _ _ _ X).
    - rewrite nth_error_app2 by exact L. rewrite SK. intros X. left. rewrite firstn_length in *. unfold len in *.
      assert (n < length d0)%nat.
      { assert (Y : nth_error d0 (Z.to_nat (Z.of_nat (length w)) + (n - Nat.min (Z.to_nat (Z.of_nat (length d0))) (length w))) <> None) by congruence. apply nth_error_Some in Y. lia. }
      replace n with (Z.to_nat (Z.of_nat (length w)) + (n - Nat.min (Z.to_nat (Z.of_nat (length d0))) (length w)))%nat at 1; [exact X|]. 
      assert (Y : nth_error d0 (Z.to_nat (Z.of_nat (length w)) + (n - Nat.min (Z.to_nat (Z.of_nat (length d0))) (length w))) <> None) by congruence. apply nth_error_Some in Y. lia. }
  induction H as [d|d w ws e H1 H2 [L IH]|d w ws j H1 H2].
  - split; [reflexivity|]. intros n b X. left. exact X.
  - split; [rewrite L; apply over_len|]. intros n b X. destruct (IH n b X) as [Y|(v & V1 & V2)]; [|right; exists v; split; [right; exact V1|exact V2]].
    destruct (OV _ _ _ _ Y) as [Z1|Z1]; [left; exact Z1|right; exists w; split; [left; reflexivity|exact Z1]].
  - split; [apply over_len|]. intros n b X. destruct (OV _ _ _ _ X) as [Y|Y]; [left; exact Y|]. right. exists w. split; [left; reflexivity|]. exact (FI _ _ _ _ Y).
Qed.
Print Assumptions C218_places.
