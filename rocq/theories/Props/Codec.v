(** Property C174: what a CodecParser writes, exactly. *)
From Verif Require Import Base.Go Base.GoFacts Base.IO Proofs.IOFacts Model.Packet Model.Parsers Spec.Parsers Spec.H264 Spec.Codec Proofs.Parsers Props.Parsers Props.H264.
Local Ltac Zify.zify_post_hook ::= Z.div_mod_to_equations.

(** ** C174 *)
Lemma seven_eq (a b c d e f g a' b' c' d' e' f' g' : Z) : a = a' -> b = b' -> c = c' -> d = d' -> e = e' -> f = f' -> g = g' -> [a; b; c; d; e; f; g] = [a'; b'; c'; d'; e'; f'; g'].
Proof. congruence. Qed.
Lemma adts_header_seven o i c n : 0 <= o < 32 -> 0 <= i < 16 -> 0 <= c < 16 -> 0 <= n -> adts_header (mkAac true o i c) n = seven_bytes (adts_number o i c n).
Proof.
  intros Ho Hi Hc Hn. rewrite adts_header_eq by (try exact Hn; repeat split; cbn; lia). cbn [ac_object ac_rate ac_chan]. unfold seven_bytes, adts_number. cbn [map].
  set (p := (o - 1) mod 4). assert (Hp : 0 <= p < 4) by (unfold p; lia). clearbody p. set (L := (n + 7) mod 8192). assert (HL : 0 <= L < 8192) by (unfold L; lia). clearbody L.
  repeat match goal with |- context [2 ^ ?e] => let v := eval compute in (2 ^ e) in change (2 ^ e) with v end.
  repeat match goal with |- context [256 ^ ?e] => let v := eval compute in (256 ^ e) in change (256 ^ e) with v end.
  apply seven_eq; lia.
Qed.
(** A parser that knows [k]. *)
Definition knows (c : codec) (k : known) : Prop :=
  h_info (or_new (cp_h264 c) new_h264) = k_sets k /\
  match cp_aac c with
  | None => k_aac k = false /\ k_config k = None
  | Some a => k_aac k = true /\
      match k_config k with
      | None => a = new_aac
      | Some (o, i, ch) => a = mkAac true o i ch /\ 0 <= o < 32 /\ 0 <= i < 16 /\ 0 <= ch < 16
      end
  end /\ cp_mp3 c = k_mp3 k.
Lemma knows_fun c k1 k2 : knows c k1 -> knows c k2 -> k1 = k2.
Proof.
  destruct k1 as [s1 a1 g1 m1], k2 as [s2 a2 g2 m2]. unfold knows. cbn [k_sets k_aac k_config k_mp3]. intros (A1 & A2 & A3) (B1 & B2 & B3).
  assert (a1 = a2 /\ g1 = g2) as [-> ->]; [|congruence]. destruct (cp_aac c) as [a|]; [|destruct A2, B2; split; congruence].
  destruct A2 as [-> A2], B2 as [-> B2]. split; [reflexivity|]. destruct g1 as [[[o i] x]|], g2 as [[[o' i'] x']|]; try reflexivity.
  - destruct A2 as [-> _], B2 as [B2 _]. congruence.
  - destruct A2 as [-> _]. discriminate.
  - destruct B2 as [-> _]. discriminate.
Qed.
Definition verdict_res (v : verdict) : res unit := match v with Accepted => Ok tt | Refused => Err EOther | Crashed => Panic end.
Definition media_bytes (p : packet) : Prop := forall m, p_media p = Some m -> is_bytes m.
Lemma route_bytes p : media_bytes p -> match route_of p with RAvc _ m | RAac _ m | RMp3 m => is_bytes m | _ => True end.
Proof.
  intros H. unfold route_of. destruct (p_header p) as [h|]; [|exact I]. unfold media_bytes in H. destruct (p_media p) as [m|]; [|exact I]. specialize (H m eq_refl).
  destruct (p_type p =? PktVideo).
  - destruct (h_video h) as [v|]; [|exact I]. destruct (v_avc v); [exact H|exact I].
  - destruct (p_type p =? PktAudio); [|exact I]. destruct (h_audio h) as [a|]; [|exact I]. destruct (a_aac a); [exact H|]. destruct (a_mp3 a); [exact H|exact I].
Qed.
Lemma known_aac c k a : knows c k -> or_new (cp_aac c) new_aac = a ->
  match k_config k with
  | None => a = new_aac
  | Some (o, i, ch) => a = mkAac true o i ch /\ 0 <= o < 32 /\ 0 <= i < 16 /\ 0 <= ch < 16
  end.
Proof. intros (_ & H & _) <-. destruct (cp_aac c) as [x|]; cbn [or_new]; [apply H|]. destruct H as [_ ->]. reflexivity. Qed.
Lemma mp3_parse_read p b : is_bytes b -> mp3_parse p b = match mp3_rate_read b with Some r => (r, Ok tt) | None => (p, Err EOther) end.
Proof.
  intros HB. unfold mp3_parse, mp3_rate_read. destruct b as [|b0 [|b1 [|b2 b]]]; try reflexivity.
  assert (B2 : byte b2) by (inversion HB as [|? ? _ X]; inversion X as [|? ? _ Y]; inversion Y; assumption). unfold byte in B2.
  rewrite !len_cons. pose proof (len_nonneg b). replace (1 + (1 + (1 + len b)) <? 3) with false by lia. change (at_ (b0 :: b1 :: b2 :: b) 2) with b2.
  rewrite (land_mask _ 2), shiftr_div by lia. change (2 ^ 2) with 4. change (2 ^ 1) with 2. change (len mp3_rates) with 3.
  assert (HI : In (b2 / 2 mod 4) [0; 1; 2; 3]) by (cbn; lia). cbn [In] in HI. destruct HI as [<-|[<-|[<-|[<-|[]]]]]; reflexivity.
Qed.
Lemma codec_step k r k' out v : codec_converted k r k' out v -> forall c p w, route_of p = r -> media_bytes p -> knows c k -> never_fails w ->
  exists c' w', codec_parse c p w = (c', (w', verdict_res v)) /\ knows c' k' /\ w_out w' = w_out w ++ out.
Proof.
  intros H c p w Hr Hm Hk Hw. rewrite codec_parse_route. pose proof (route_bytes p Hm) as RB. rewrite Hr in *. pose proof Hk as (K1 & K2 & K3).
  destruct H as [| |b seq sets out ok H|b0 b1 rest o i ch H|frame o i ch Hne H|t b H0 H1|b r H|b H].
  - exists c, w. rewrite app_nil_r. auto.
  - exists c, w. rewrite app_nil_r. auto.
  - destruct (converted_parse _ _ _ _ _ _ RB H (or_new (cp_h264 c) new_h264) w K1 Hw) as (p' & w' & E & E1 & E2). rewrite E. eexists _, w'.
    split; [destruct ok; reflexivity|]. split; [|exact E2]. unfold knows. cbn. split; [exact E1|]. split; [exact K2|exact K3].
  - inversion RB as [|? ? B0 RB1]; inversion RB1 as [|? ? B1 RB2]; subst. pose proof (specific_info_eq (or_new (cp_aac c) new_aac) b0 b1 rest B0 B1) as S. rewrite H in S. destruct S as (E & R).
    unfold aac_parse. rewrite !len_cons. pose proof (len_nonneg rest). replace (1 + (1 + len rest) =? 0) with false by lia. change (0 =? 0) with true. cbv iota. rewrite E. eexists _, w.
    split; [destruct (i =? 15); reflexivity|]. rewrite app_nil_r. split; [|reflexivity]. unfold knows. cbn. split; [exact K1|]. split; [split; [reflexivity|]; split; [reflexivity|exact R]|exact K3].
  - pose proof (known_aac c k _ Hk eq_refl) as A. rewrite H in A. destruct A as (A & R1 & R2 & R3). rewrite A, raw_frame by (exact Hne || reflexivity). rewrite run_plan_ok by exact Hw.
    eexists _, _. split; [reflexivity|]. cbn [w_out concat]. rewrite app_nil_r. unfold adts_frame. rewrite adts_header_seven by (try apply len_nonneg; assumption). split; [|reflexivity].
    unfold knows. cbn. split; [exact K1|]. split; [|exact K3]. split; [reflexivity|]. rewrite H. auto.
  - pose proof (known_aac c k _ Hk eq_refl) as A. set (a := or_new (cp_aac c) new_aac) in *.
    assert (E : aac_parse a b t w = (a, (w, Err EOther))).
    { unfold aac_parse. destruct (Z.eqb_spec (len b) 0) as [|L]; [reflexivity|]. destruct (Z.eqb_spec t 0) as [T|T].
      - unfold specific_info. specialize (H0 T). replace (len b <? 2) with true by lia. reflexivity.
      - destruct (Z.eqb_spec t 1) as [T1|]; [|reflexivity]. destruct (H1 T1) as [-> | HC]; [elim L; reflexivity|]. rewrite HC in A. rewrite A. unfold add_adts. cbn [ac_got new_aac negb]. rewrite orb_true_r. reflexivity. }
    rewrite E. eexists _, w. rewrite app_nil_r. split; [reflexivity|]. split; [|reflexivity]. unfold knows. cbn. split; [exact K1|]. split; [|exact K3]. split; [reflexivity|exact A].
  - rewrite mp3_parse_read by exact RB. rewrite H. eexists _, w. rewrite app_nil_r. split; [reflexivity|]. split; [|reflexivity]. unfold knows. cbn. auto.
  - rewrite mp3_parse_read by exact RB. rewrite H. eexists _, w. rewrite app_nil_r. split; [reflexivity|]. split; [|reflexivity]. unfold knows. cbn. split; [exact K1|]. split; [exact K2|]. rewrite K3. reflexivity.
Qed.
Lemma codec_total k p : media_bytes p -> exists k' out v, codec_converted k (route_of p) k' out v.
Proof.
  intros Hm. pose proof (route_bytes p Hm) as RB. destruct (route_of p) as [| |s m|t m|m].
  - eexists _, _, _. apply K_none.
  - eexists _, _, _. apply K_no_interface.
  - destruct (converted_total (k_sets k) m s RB) as (c' & out & ok & H). eexists _, _, _. apply K_avc, H.
  - destruct (Z.eq_dec t 0) as [->|T0].
    + destruct m as [|b0 [|b1 m]]; try (eexists _, _, _; apply K_aac_refused; [intros _; unfold len; cbn [length]; lia|discriminate]).
      destruct (config_bits b0 b1) as [[o i] ch] eqn:E. eexists _, _, _. eapply K_config, E.
    + destruct (Z.eq_dec t 1) as [->|T1]; [|eexists _, _, _; apply K_aac_refused; intros ->; contradiction].
      destruct (list_eq_dec Z.eq_dec m []) as [->|Hne]; [eexists _, _, _; apply K_aac_refused; [discriminate|auto]|].
      destruct (k_config k) as [[[o i] ch]|] eqn:E; eexists _, _, _; [eapply K_frame; eassumption|apply K_aac_refused; [discriminate|auto]].
  - destruct (mp3_rate_read m) as [r|] eqn:E; eexists _, _, _; [eapply K_mp3, E|apply K_mp3_refused, E].
Qed.
Lemma new_knows : knows new_codec nothing. Proof. unfold knows. cbn. auto. Qed.
(** The relation says exactly one thing about every stream. *)
Theorem C174_relation : forall ps, Forall media_bytes ps -> exists! x, codec_stream nothing ps (fst x) (snd x).
Proof.
  intros ps. generalize new_knows. generalize nothing as k. generalize new_codec as c. induction ps as [|p ps IH]; intros c k Hk HF.
  - exists (k, []). split; [constructor|]. intros [k' o] H. cbn [fst snd] in H. inversion H; subst. reflexivity.
  - inversion HF as [|? ? Hm HF']; subst. destruct (codec_total k p Hm) as (k1 & out & v & H).
    destruct (codec_step _ _ _ _ _ H c p buffer0 eq_refl Hm Hk (fun _ => eq_refl)) as (c1 & w1 & A1 & A2 & A3).
    destruct (IH c1 k1 A2 HF') as ((k2 & outs) & H1 & H2). cbn [fst snd] in *. exists (k2, (out, v) :: outs). cbn [fst snd]. split; [econstructor; eassumption|].
    intros [k3 o] Ho. cbn [fst snd] in Ho. inversion Ho as [|? k4 ? ? ? out4 v4 outs4 G1 G2]; subst.
    destruct (codec_step _ _ _ _ _ G1 c p buffer0 eq_refl Hm Hk (fun _ => eq_refl)) as (c4 & w4 & B1 & B2 & B3).
    rewrite A1 in B1. injection B1 as <- <- Ev. rewrite A3 in B3. cbn [buffer0 w_out app] in B3. pose proof (knows_fun _ _ _ A2 B2). subst k4 out4.
    assert (v = v4) by (destruct v, v4; cbn in Ev; congruence). subst v4. specialize (H2 (k3, outs4) G2). congruence.
Qed.
Print Assumptions C174_relation.
(** A CodecParser from its creation: every call writes and returns what the relation says, and so does SampleRate afterwards. *)
Theorem C174_stream_converted : forall ops k outs, Forall (fun o => media_bytes (fst o) /\ never_fails (snd o)) ops ->
  codec_stream nothing (map fst ops) k outs ->
  let '(c, rs) := codec_run new_codec ops in
  Forall2 (fun (o : bytes * verdict) (x : (packet * writer) * (writer * res unit)) =>
      w_out (fst (snd x)) = w_out (snd (fst x)) ++ fst o /\
      snd (snd x) = match snd o with Accepted => Ok tt | Refused => Err EOther | Crashed => Panic end)
    outs (combine ops rs) /\
  codec_rate c = match known_rate k with Some r => Ok r | None => Err EOther end.
Proof.
  intros ops k outs HF H. revert H. generalize new_knows. generalize nothing as k0. generalize new_codec as c0. revert outs k.
  induction HF as [|[p w] ops [HB Hw] HF IH]; intros outs k c0 k0 Hk H; cbn [map fst snd] in *; inversion H as [|? k1 ? ? ? out v outs2 G1 G2]; subst.
  - cbn [codec_run combine]. split; [constructor|]. destruct Hk as (_ & K2 & K3). unfold codec_rate, known_rate. destruct (cp_aac c0) as [a|].
    + destruct K2 as [-> K2]. f_equal. destruct (k_config k) as [[[o i] ch]|]; [|subst a; reflexivity]. destruct K2 as (-> & _ & Hi & _).
      unfold aac_sample_rate. cbn [ac_rate]. assert (HI : In i [0; 1; 2; 3; 4; 5; 6; 7; 8; 9; 10; 11; 12; 13; 14; 15]) by (cbn [In]; lia).
      cbn [In] in HI. repeat (destruct HI as [<-|HI]; [reflexivity|]). elim HI.
    + destruct K2 as [-> _]. rewrite K3. destruct (k_mp3 k); reflexivity.
  - destruct (codec_step _ _ _ _ _ G1 c0 p w eq_refl HB Hk Hw) as (c1 & w1 & A1 & A2 & A3). specialize (IH outs2 k c1 k1 A2 G2).
    cbn [codec_run]. rewrite A1. destruct (codec_run c1 ops) as [c2 rs]. destruct IH as [I1 I2]. split; [|exact I2]. cbn [combine]. constructor; [cbn [fst snd]; split; [exact A3|destruct v; reflexivity]|exact I1].
Qed.
Print Assumptions C174_stream_converted.
(** An AAC configuration, a video configuration, an AAC frame and a key frame, and an MP3 frame that is refused. *)
Example C174_example :
  let cfg := mkP PktVideo 0 0 0 (Some (mkH (Some (mkVH true false true false true 7 0)) None)) [] (Some (ex_header ex_sps ex_pps [])) in
  exists k, codec_stream nothing [ex_aac 0 [0x12; 0x10]; cfg; ex_aac 1 [7; 8]; ex_video; ex_mp3 [1]] k
    [([], Accepted); ([], Accepted); ([0xff; 0xf1; 0x50; 0x80; 0x01; 0x3f; 0xfc; 7; 8], Accepted);
     (delimiter ++ annexb [ex_sps; ex_pps] ++ annexb [ex_idr], Accepted); ([], Refused)] /\ known_rate k = Some 44100.
Proof.
  cbv zeta. eexists. split.
  - eapply Ks_cons; [exact (K_config nothing 0x12 0x10 [] 2 4 2 eq_refl)|]. eapply Ks_cons; [eapply (K_avc _ _ _ _ _ true), H_header; apply Hd_record; unfold len; cbn; lia|].
    eapply Ks_cons; [eapply (K_frame _ [7; 8] 2 4 2); [discriminate|reflexivity]|].
    eapply Ks_cons; [eapply (K_avc _ _ _ _ _ true), H_units; [discriminate| | | |]|].
    + constructor; [split; [discriminate|split; [repeat constructor; cbn; lia|unfold len; cbn; lia]]|constructor].
    + repeat constructor.
    + intros [r X]. discriminate.
    + apply (Cv_idr _ [] ex_idr []); [intros ? []|reflexivity].
    + eapply Ks_cons; [apply K_mp3_refused; reflexivity|]. constructor.
  - reflexivity.
Qed.
