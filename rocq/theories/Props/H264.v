(** Property C173: what H.264 conversion writes, exactly. *)
From Verif Require Import Base.Go Base.GoFacts Base.IO Proofs.IOFacts Model.Packet Model.Parsers Spec.Parsers Spec.H264 Proofs.Parsers Props.Parsers.

(** ** C173 *)
Lemma avcc_cons n ns t : avcc (n :: ns) ++ t = be32 (len n) ++ n ++ (avcc ns ++ t).
Proof. unfold avcc. cbn [map concat]. rewrite <- !app_assoc. reflexivity. Qed.
Lemma split_unique n1 : forall n2 t1 t2, Forall good_nal n1 -> Forall (fun n => is_supported n = true) n1 -> Forall good_nal n2 -> Forall (fun n => is_supported n = true) n2 ->
  t1 = [] \/ bad_tail t1 -> t2 = [] \/ bad_tail t2 -> avcc n1 ++ t1 = avcc n2 ++ t2 -> n1 = n2 /\ t1 = t2.
Proof.
  assert (NB : forall n ns t u, good_nal n -> is_supported n = true -> u = [] \/ bad_tail u -> u <> avcc (n :: ns) ++ t).
  { intros n ns t u G S [-> | [_ H]]; rewrite avcc_cons; [unfold be32; discriminate|]. apply H; assumption. }
  induction n1 as [|n ns IH]; intros [|m ms] t1 t2 G1 S1 G2 S2 T1 T2 E.
  - split; [reflexivity|exact E].
  - inversion G2; inversion S2; subst. elim (NB m ms t2 t1); auto.
  - inversion G1; inversion S1; subst. elim (NB n ns t1 t2); auto.
  - inversion G1 as [|? ? A1 A2]; inversion S1 as [|? ? B1 B2]; inversion G2 as [|? ? C1 C2]; inversion S2 as [|? ? D1 D2]; subst. rewrite !avcc_cons in E.
    destruct (good_nal_head n (avcc ns ++ t1) A1) as (_ & X2 & X3 & X4 & X5). destruct (good_nal_head m (avcc ms ++ t2) C1) as (_ & Y2 & Y3 & Y4 & Y5).
    assert (EL : len n = len m) by (rewrite <- X3, <- Y3, <- X2, <- Y2, E; reflexivity).
    rewrite E, Y4 in X4. assert (En : n = m) by (rewrite <- (take_app n (avcc ns ++ t1)), <- (take_app m (avcc ms ++ t2)), X4, EL; reflexivity).
    subst m. apply app_inv_head in X4. destruct (IH ms t1 t2 A2 B2 C2 D2 T1 T2 (eq_sym X4)) as [-> ->]. auto.
Qed.
Lemma stream_long b : starts_0001 b -> 4 <= len b.
Proof. intros [r ->]. rewrite !len_cons. pose proof (len_nonneg r). lia. Qed.
Lemma avcc_long nals : nals <> [] -> 4 <= len (avcc nals).
Proof.
  destruct nals as [|n ns]; [congruence|]. intros _. rewrite <- (app_nil_r (avcc _)), avcc_cons, !len_app, len_be32.
  pose proof (len_nonneg n). pose proof (len_nonneg (avcc ns)). change (len []) with 0. lia.
Qed.
(** A call does what the relation says. *)
Lemma converted_parse c b seq c' out ok : is_bytes b -> converted c b seq c' out ok -> forall p w, h_info p = c -> never_fails w ->
  exists p' w', h264_parse p b seq w = (p', (w', if ok then Ok tt else Err EOther)) /\ h_info p' = c' /\ w_out w' = w_out w ++ out.
Proof.
  intros HB H p w Hp Hw.
  assert (EN : forall b : bytes, b = [] \/ (len b =? 0) = false) by (intros [|x l]; [left; reflexivity|right; rewrite len_cons; pose proof (len_nonneg l); lia]).
  assert (M : seq = false -> b <> [] -> ~ starts_0001 b -> 4 <= len b ->
    forall nals tail, b = avcc nals ++ tail -> Forall good_nal nals -> Forall (fun n => is_supported n = true) nals -> tail = [] \/ bad_tail tail ->
    converts c nals out -> exists p' w', h264_parse p b seq w = (p', (w', match tail with [] => Ok tt | _ => Err EOther end)) /\ h_info p' = c /\ w_out w' = w_out w ++ out).
  { intros -> Hne Hs HL nals tail Eb HG HS HT CV. destruct (parse_media p b HB Hne Hs) as (calls & r & HP & [(L & _)|(n2 & t2 & _ & E2 & G2 & S2 & CV2 & HT2)]); [lia|].
    assert (T2 : t2 = [] \/ bad_tail t2) by (destruct HT2 as [[-> _]|[HT2 _]]; auto).
    destruct (split_unique nals n2 tail t2 HG HS G2 S2 HT T2 ltac:(congruence)) as [<- <-]. rewrite Hp in CV2.
    destruct (HP w) as (p' & E & HI). rewrite run_plan_ok in E by exact Hw. rewrite (C21_conversion_unique _ _ _ _ CV CV2).
    exists p', (mkW (w_out w ++ concat calls) (w_calls w + length calls) (w_script w)). rewrite E. split; [|split; [congruence|reflexivity]]. destruct HT2 as [[-> ->]|[[HN _] ->]]; [reflexivity|]. destruct tail; [congruence|reflexivity]. }
  destruct H as [b sps pps ext Hh|b Hh|b Hs|b Hl|nals out Hne HG HS Hs CV|nals tail out HG HS HT Hs HL CV].
  - unfold h264_parse. destruct (EN b) as [-> | ->]; [inversion Hh|]. rewrite (psi_record _ _ _ _ _ Hh). eexists _, w. split; [reflexivity|]. cbn [h_info]. rewrite Hp, app_nil_r. auto.
  - unfold h264_parse. destruct (EN b) as [-> | ->]; [eexists p, w; rewrite app_nil_r; auto|]. destruct (psi_inv p b HB) as [(s & q & x & X)|[-> _]]; [elim (Hh _ _ _ X)|]. exists p, w. rewrite app_nil_r. auto.
  - unfold h264_parse. pose proof (stream_long b Hs) as L. replace (len b =? 0) with false by lia. rewrite (proj2 (is_start_spec b) Hs). rewrite write_never_fails by exact Hw. eexists p, _. split; [reflexivity|]. auto.
  - unfold h264_parse, get_annexb. assert (is_start b = false) as -> by (unfold is_start; replace (len b <? 4) with true by lia; reflexivity). replace (len b <? 4) with true by lia.
    exists p, w. rewrite app_nil_r. destruct (len b =? 0); auto.
  - destruct (M eq_refl (avcc_nonempty _ Hne) Hs (avcc_long _ Hne) nals [] (eq_sym (app_nil_r _)) HG HS (or_introl eq_refl) CV) as (p' & w' & H). exists p', w'. exact H.
  - destruct (M eq_refl ltac:(intros X; rewrite X in HL; change (len []) with 0 in HL; lia) Hs HL nals tail eq_refl HG HS (or_intror HT) CV) as (p' & w' & H). exists p', w'.
    destruct tail; [destruct HT; congruence|exact H].
Qed.
(** The relation says something about every packet. *)
Lemma converted_total c b seq : is_bytes b -> exists c' out ok, converted c b seq c' out ok.
Proof.
  intros HB. destruct seq.
  - destruct (psi_inv (mkH264 [] []) b HB) as [(sps & pps & ext & H)|[_ H]]; eexists _, _, _; [eapply H_header, H|apply H_no_header, H].
  - destruct (Z.ltb_spec (len b) 4) as [L|L]; [eexists _, _, _; apply H_short, L|].
    destruct (is_start b) eqn:ES; [eexists _, _, _; apply H_stream, is_start_spec, ES|].
    assert (Hs : ~ starts_0001 b) by (intros X; apply is_start_spec in X; congruence).
    assert (Hne : b <> []) by (intros ->; change (len []) with 0 in L; lia).
    destruct (parse_media (mkH264 c []) b HB Hne Hs) as (calls & r & _ & [(L2 & _)|(nals & tail & _ & -> & G & S & CV & HT)]); [lia|]. cbn [h_info] in CV.
    destruct HT as [[-> _]|[HT _]]; eexists _, _, _; [rewrite app_nil_r in *; apply H_units|apply H_broken]; try eassumption. intros ->. apply Hne. reflexivity.
Qed.
(** Exactly one thing. *)
Theorem C173_relation : forall c bs, Forall (fun x => is_bytes (fst x)) bs -> exists! outs, stream_converted c bs outs.
Proof.
  intros c bs. revert c. induction bs as [|[b seq] bs IH]; intros c HF; [exists []; split; [constructor|intros o H; inversion H; reflexivity]|].
  inversion HF as [|? ? HB HF']; subst. cbn [fst] in HB. destruct (converted_total c b seq HB) as (c' & out & ok & H). destruct (IH c' HF') as (outs & H1 & H2).
  exists ((out, ok) :: outs). split; [econstructor; eassumption|]. intros o Ho. inversion Ho as [|c0 c2 b0 s0 out2 ok2 bs0 outs2 K1 K2]; subst.
  destruct (converted_parse _ _ _ _ _ _ HB H (mkH264 c []) buffer0 eq_refl (fun _ => eq_refl)) as (p1 & w1 & A1 & A2 & A3).
  destruct (converted_parse _ _ _ _ _ _ HB K1 (mkH264 c []) buffer0 eq_refl (fun _ => eq_refl)) as (p2 & w2 & B1 & B2 & B3).
  rewrite A1 in B1. injection B1 as <- <- Ek. rewrite A2 in B2. rewrite A3 in B3. cbn [buffer0 w_out app] in B3. subst c2 out2.
  rewrite (H2 _ K2). f_equal. f_equal. destruct ok, ok2; congruence.
Qed.
Print Assumptions C173_relation.
(** A parser from its creation: every call writes and returns what the relation says. *)
Theorem C173_stream_converted : forall ops outs, Forall (fun o => is_bytes (fst (fst o)) /\ never_fails (snd o)) ops ->
  stream_converted [] (map fst ops) outs ->
  Forall2 (fun (o : bytes * bool) (x : (bytes * bool * writer) * (writer * res unit)) => w_out (fst (snd x)) = w_out (snd (fst x)) ++ fst o /\ snd (snd x) = if snd o then Ok tt else Err EOther)
    outs (combine ops (snd (h264_run new_h264 ops))).
Proof.
  intros ops outs HF H. change [] with (h_info new_h264) in H. revert H. generalize new_h264 as p. revert outs.
  induction HF as [|[[b seq] w] ops [HB Hw] HF IH]; intros outs p H; cbn [map fst snd] in *; inversion H as [|c0 c2 b0 s0 out ok bs0 outs2 K1 K2]; subst; [constructor|].
  destruct (converted_parse _ _ _ _ _ _ HB K1 p w eq_refl Hw) as (p1 & w1 & A1 & A2 & A3). subst c2. specialize (IH outs2 p1 K2).
  cbn [h264_run]. rewrite A1. destruct (h264_run p1 ops) as [p2 rs]. cbn [snd combine]. constructor; [cbn [fst snd]; auto|exact IH].
Qed.
Print Assumptions C173_stream_converted.

(** Two sequence headers accumulate; a packet with a unit cut short has its first unit written and fails. *)
Example C173_example : let h := ex_header ex_sps ex_pps [] in let sets := annexb [ex_sps; ex_pps] in
  stream_converted [] [(h, true); ([7], true); (h, true); (avcc [ex_idr], false); (avcc [ex_slice] ++ [0; 0; 0; 9; 1], false)]
    [([], true); ([], false); ([], true); (delimiter ++ (sets ++ sets) ++ annexb [ex_idr], true); (delimiter ++ annexb [ex_slice], false)].
Proof.
  cbv zeta. assert (Hh : header_of ex_sps ex_pps [] (ex_header ex_sps ex_pps [])) by (apply Hd_record; unfold len; cbn; lia).
  assert (GN : forall n, n <> [] -> is_bytes n -> (length n <= 3)%nat -> good_nal n) by (intros n A B L; split; [exact A|split; [exact B|]]; unfold len; change (2 ^ 32) with 4294967296; lia).
  eapply Sc_cons; [eapply H_header, Hh|]. eapply Sc_cons; [apply H_no_header; intros s q e X; inversion X|]. eapply Sc_cons; [eapply H_header, Hh|]. rewrite !app_nil_r, app_nil_l.
  eapply Sc_cons; [apply H_units; [discriminate| | | |]|].
  - constructor; [apply GN; [discriminate|repeat constructor; cbn; lia|cbn; lia]|constructor].
  - repeat constructor.
  - intros [r X]. discriminate.
  - apply (Cv_idr _ [] ex_idr []); [intros ? []|reflexivity].
  - eapply Sc_cons; [|constructor]. apply H_broken.
    + constructor; [apply GN; [discriminate|repeat constructor; cbn; lia|cbn; lia]|constructor].
    + repeat constructor.
    + split; [discriminate|]. intros n rest G S E. destruct (good_nal_head n rest G) as (L1 & L2 & L3 & L4 & L5). rewrite <- E in L2, L4.
      change (take [0; 0; 0; 9; 1] 4) with (be32 9) in L2. rewrite <- L2 in L3. change (be_val (be32 9)) with 9 in L3. apply (f_equal (@len Z)) in L4. rewrite len_app in L4.
      pose proof (len_nonneg rest). change (len (drop [0; 0; 0; 9; 1] 4)) with 1 in L4. lia.
    + intros [r X]. discriminate.
    + unfold len. cbn [avcc map concat be32 app length]. lia.
    + apply Cv_no_idr. intros n [<-|[]]. reflexivity.
Qed.
