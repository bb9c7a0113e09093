(** Further AMF0 facts: counts, writer failures, dates, batches, references, chunked readers. *)
From Coq Require Import Permutation.
From Verif Require Import Base.Go Base.GoFacts Base.IO Base.Float64 Proofs.Float64 Proofs.IOFacts
  Model.AmfTypes Model.Amf3 Model.Amf0 Spec.Amf Proofs.AmfFacts Proofs.Amf0Enc Proofs.Amf0RT Proofs.AmfTerm Proofs.AmfTame.

(** * Honest writers *)

(** Success means: no call failed, and the script is unchanged. [Q s a] relates bytes written and result. *)
Definition honest {A} (Q : bytes -> A -> Prop) (m : Wm A) : Prop := forall w,
  exists w' r s, m w = (w', r) /\ w_script w' = w_script w /\ (w_calls w <= w_calls w')%nat /\ w_out w' = w_out w ++ s /\
  ((exists a, r = Ok a /\ Q s a /\ forall k, (w_calls w <= k < w_calls w')%nat -> w_script w k = None) \/
   (exists e, r = Err e)).

Lemma honest_ret {A} (Q : bytes -> A -> Prop) a : Q [] a -> honest Q (wret a).
Proof.
  intros H w. exists w, (Ok a), []. rewrite app_nil_r. repeat split; auto. left. exists a. repeat split; auto.
  intros; lia.
Qed.
Lemma honest_fail {A} (Q : bytes -> A -> Prop) e : honest Q (wfail e).
Proof. intros w. exists w, (Err e), []. rewrite app_nil_r. repeat split; auto. right. eauto. Qed.
Lemma honest_write (Q : bytes -> unit -> Prop) s : Q s tt -> honest Q (write s).
Proof.
  intros H w. unfold write. destruct (w_script w (w_calls w)) as [m|] eqn:E.
  - eexists _, _, (firstn m s). repeat split; cbn; auto. right; eauto.
  - eexists _, _, s. repeat split; cbn; auto. left. exists tt. repeat split; auto.
    intros k Hk. assert (k = w_calls w) by lia. subst. exact E.
Qed.
Lemma honest_bind {A B} (P : bytes -> A -> Prop) (Q : bytes -> B -> Prop) (m : Wm A) (k : A -> Wm B) :
  honest P m -> (forall s a, P s a -> honest (fun t b => Q (s ++ t) b) (k a)) -> honest Q (wbind m k).
Proof.
  intros Hm Hk w. unfold wbind. destruct (Hm w) as (w1 & r & s & E & Hs & Hc & Ho & Hr). rewrite E.
  destruct Hr as [(a & -> & HP & HN)|(e & ->)].
  - destruct (Hk s a HP w1) as (w2 & r2 & s2 & E2 & Hs2 & Hc2 & Ho2 & Hr2). rewrite E2.
    exists w2, r2, (s ++ s2). split; [reflexivity|]. split; [congruence|]. split; [lia|].
    split; [rewrite Ho2, Ho, app_assoc; reflexivity|].
    destruct Hr2 as [(b & -> & HQ & HN2)|(e & ->)]; [left|right; eauto].
    exists b. repeat split; auto. intros j Hj. destruct (Nat.lt_ge_cases j (w_calls w1)).
    + apply HN. lia.
    + rewrite <- Hs. apply HN2. lia.
  - exists w1, (Err e), s. repeat split; auto. right; eauto.
Qed.
Lemma honest_weak {A} (P Q : bytes -> A -> Prop) m : (forall s a, P s a -> Q s a) -> honest P m -> honest Q m.
Proof.
  intros H Hm w. destruct (Hm w) as (w1 & r & s & E & Hs & Hc & Ho & Hr). exists w1, r, s. repeat split; auto.
  destruct Hr as [(a & -> & HP & HN)|]; [left; exists a; auto|right; auto].
Qed.

Lemma honest_reports {A} (Q : bytes -> A -> Prop) m : honest Q m -> reports m.
Proof.
  intros H w. destruct (H w) as (w1 & r & s & E & Hs & Hc & Ho & Hr). rewrite E. split; [eauto|].
  destruct Hr as [(a & -> & HP & HN)|(e & ->)]; split; eauto.
  intros (k & Hk & Hn). elim Hn. apply HN. exact Hk.
Qed.

Definition any_q : bytes -> Z -> Prop := fun _ _ => True.
Definition count_q : bytes -> Z -> Prop := fun s n => n = len s.

Ltac hon := repeat first
  [ apply honest_ret; try exact I | apply honest_fail | apply honest_write; try exact I
  | assumption
  | eapply (@honest_bind _ _ (fun _ _ => True)); [|intros ? ? _] ].

(** Any-result honesty of all encoders. *)
Lemma honest_string0 s m : honest any_q (encode_string0 s m).
Proof. unfold encode_string0, write_byte. destruct m; cbv zeta; hon. Qed.
Lemma honest_fields0 fs : Forall (fun p => honest any_q (snd p)) fs -> honest any_q (encode_fields0 fs).
Proof.
  induction 1 as [|[k m] fs Hm _ IH]; cbn [encode_fields0]; [hon|].
  eapply (@honest_bind _ _ (fun _ _ => True)); [apply honest_string0|]. intros ? ? _. hon.
Qed.
Lemma honest_object0 fs m : Forall (fun p => honest any_q (snd p)) fs -> honest any_q (encode_object0 fs m).
Proof.
  intros H. unfold encode_object0, write_byte.
  eapply (@honest_bind _ _ (fun _ _ => True)); [destruct m; hon|]. intros ? ? _.
  eapply (@honest_bind _ _ (fun _ _ => True)); [apply honest_fields0; exact H|]. intros ? ? _.
  eapply (@honest_bind _ _ (fun _ _ => True)); [apply honest_string0|]. intros ? ? _. hon.
Qed.
Lemma honest_w_sum ms : Forall (honest any_q) ms -> honest any_q (w_sum ms).
Proof. induction 1; cbn [w_sum]; hon. Qed.

Theorem encode0_reports t : honest any_q (encode0 t).
Proof.
  induction t as [|b|b|w z|w z|s|s|s|l IH|fs IH|ty fs IH|] using tree_ind'; cbn [encode0];
    unfold encode_null, encode_boolean, encode_number, encode_date0, encode_strict0, encode_number, write_byte; try solve [hon].
  - destruct (len s <=? 65535); [apply honest_string0|]. unfold encode_longstring0, write_byte. hon.
  - eapply (@honest_bind _ _ (fun _ _ => True)); [hon|]. intros ? ? _.
    eapply (@honest_bind _ _ (fun _ _ => True)); [hon|]. intros ? ? _.
    eapply (@honest_bind _ _ (fun _ _ => True)); [|intros ? ? _; hon].
    apply honest_w_sum, Forall_map, Forall_forall. intros. hon.
  - eapply (@honest_bind _ _ (fun _ _ => True)); [hon|]. intros ? ? _.
    eapply (@honest_bind _ _ (fun _ _ => True)); [hon|]. intros ? ? _.
    eapply (@honest_bind _ _ (fun _ _ => True)); [|intros ? ? _; hon].
    apply honest_w_sum, Forall_map. exact IH.
  - apply honest_object0, Forall_map. exact IH.
  - unfold encode_typed0, write_byte. eapply (@honest_bind _ _ (fun _ _ => True)); [hon|]. intros ? ? _.
    eapply (@honest_bind _ _ (fun _ _ => True)); [apply honest_string0|]. intros ? ? _.
    eapply (@honest_bind _ _ (fun _ _ => True)); [|intros ? ? _; hon]. apply honest_object0, Forall_map. exact IH.
Qed.

(** Counts. *)
Lemma count_marker (b : bool) mk : honest count_q (if b then w* _ := write [mk] in wret 1 else wret 0).
Proof.
  destruct b; [|apply honest_ret; reflexivity].
  eapply (@honest_bind _ _ (fun s _ => s = [mk])); [apply honest_write; reflexivity|]. intros ? ? ->.
  apply honest_ret. reflexivity.
Qed.
Lemma honest_wb {B} (Q : bytes -> B -> Prop) s (k : unit -> Wm B) :
  honest (fun t b => Q (s ++ t) b) (k tt) -> honest Q (wbind (write s) k).
Proof.
  intros H. eapply (@honest_bind _ _ (fun t _ => t = s)); [apply honest_write; reflexivity|].
  intros t [] ->. exact H.
Qed.
Ltac cw := apply honest_wb.
Ltac cret := apply honest_ret; unfold count_q; rewrite ?len_app, ?app_nil_r, ?len_cons, ?len_nil in *; try lia.

Lemma count_string0 s m : len s <= 65535 -> honest count_q (encode_string0 s m).
Proof.
  intros Hs. unfold encode_string0, write_byte. pose proof (len_nonneg s). cbv zeta.
  eapply (@honest_bind _ _ count_q); [apply count_marker|]. intros x n Hx. unfold count_q in Hx.
  cw. cw. cret. rewrite u16_id by lia. rewrite len_be16. lia.
Qed.
Lemma count_longstring0 s m : honest count_q (encode_longstring0 s m).
Proof.
  unfold encode_longstring0, write_byte. eapply (@honest_bind _ _ count_q); [apply count_marker|]. intros x n Hx. unfold count_q in Hx.
  cw. cw. cret. rewrite len_be32. lia.
Qed.
Lemma count_fields0 fs : Forall (fun p => len (fst p) <= 65535 /\ honest count_q (snd p)) fs -> honest count_q (encode_fields0 fs).
Proof.
  induction 1 as [|[k m] fs [Hk Hm] _ IH]; cbn [encode_fields0 fst snd] in *; [apply honest_ret; reflexivity|].
  eapply (@honest_bind _ _ count_q); [apply count_string0, Hk|]. intros x1 n1 H1.
  eapply (@honest_bind _ _ count_q); [apply Hm|]. intros x2 n2 H2.
  eapply (@honest_bind _ _ count_q); [apply IH|]. intros x3 n3 H3. unfold count_q in *. cret.
Qed.
Lemma count_object0 fs m : Forall (fun p => len (fst p) <= 65535 /\ honest count_q (snd p)) fs -> honest count_q (encode_object0 fs m).
Proof.
  intros H. unfold encode_object0, write_byte.
  eapply (@honest_bind _ _ count_q); [apply count_marker|]. intros x1 n1 H1.
  eapply (@honest_bind _ _ count_q); [apply count_fields0, H|]. intros x2 n2 H2.
  eapply (@honest_bind _ _ count_q); [apply count_string0; rewrite len_nil; lia|]. intros x3 n3 H3.
  cw. unfold count_q in *. cret.
Qed.
Lemma count_w_sum ms : Forall (honest count_q) ms -> honest count_q (w_sum ms).
Proof.
  induction 1 as [|m ms Hm _ IH]; cbn [w_sum]; [apply honest_ret; reflexivity|].
  eapply (@honest_bind _ _ count_q); [apply Hm|]. intros x1 n1 H1.
  eapply (@honest_bind _ _ count_q); [apply IH|]. intros x2 n2 H2. unfold count_q in *. cret.
Qed.
Lemma count_number b : honest count_q (encode_number b).
Proof. unfold encode_number, write_byte. cw. cw. cret. reflexivity. Qed.

Theorem encode0_count t : keys_fit t -> honest count_q (encode0 t).
Proof.
  induction t as [|b|b|w z|w z|s|s|s|l IH|fs IH|ty fs IH|] using tree_ind'; cbn [keys_fit encode0]; intros Hk;
    try apply count_number.
  - unfold encode_null, write_byte. cw. cret.
  - unfold encode_boolean, write_byte. cw. cw. cret.
  - destruct (len s <=? 65535) eqn:E; [apply count_string0; lia|apply count_longstring0].
  - unfold encode_date0, write_byte. cw. eapply (@honest_bind _ _ count_q); [apply count_number|]. intros x n H. unfold count_q in *.
    cw. cret. rewrite len_be16. lia.
  - unfold encode_strict0, write_byte. cw. cw. eapply (@honest_bind _ _ count_q).
    + apply count_w_sum, Forall_map, Forall_forall. intros. apply count_number.
    + intros x n H. unfold count_q in *. cret. rewrite len_be32. lia.
  - apply all_of_map in Hk. unfold encode_strict0, write_byte. cw. cw. eapply (@honest_bind _ _ count_q).
    + apply count_w_sum, Forall_map. rewrite Forall_forall in *. intros x Hx. apply IH, Hk; exact Hx.
    + intros x n H. unfold count_q in *. cret. rewrite len_be32. lia.
  - apply all_of_map in Hk. apply count_object0, Forall_map. rewrite Forall_forall in *. cbn [fst snd].
    intros x Hx. split; [apply Hk; exact Hx|]. apply IH; [exact Hx|]. apply Hk; exact Hx.
  - destruct Hk as [Hty Hk]. apply all_of_map in Hk. unfold encode_typed0, write_byte. cw.
    eapply (@honest_bind _ _ count_q); [apply count_string0, Hty|]. intros x1 n1 H1.
    eapply (@honest_bind _ _ count_q); [apply count_object0, Forall_map|].
    { rewrite Forall_forall in *. cbn [fst snd]. intros x Hx. split; [apply Hk; exact Hx|]. apply IH; [exact Hx|]. apply Hk; exact Hx. }
    intros x2 n2 H2. unfold count_q in *. cret.
  - apply honest_fail.
Qed.

(** * Round trip at the level of the API *)
Lemma fuel_for_contr d s e : d_r d = contr s e -> fuel_for d = S (length s).
Proof. intros H. unfold fuel_for. rewrite H, contr_rest. reflexivity. Qed.

Lemma decode0_wire t d rest e : ok0 t -> d_r d = contr (wire0 t ++ rest) e -> safe_end rest e t ->
  exists d' v, decode0 d = (d', Ok v) /\ d_r d' = contr rest e /\ extends (d_heap d) (d_heap d') /\
    forall H, extends (d_heap d') H -> unfolds H v (img0 t).
Proof.
  intros Hok Hr Hs. unfold decode0. rewrite (fuel_for_contr _ _ _ Hr).
  destruct (dec0_wire t Hok (S (length (wire0 t ++ rest))) d rest e) as (d' & v & hs & H1 & H2 & H3 & H4);
    [rewrite app_length; lia|exact Hr|exact Hs|].
  exists d', v. split; [exact H1|]. split; [exact H2|]. split; [exists hs; exact H3|].
  intros H [x ->]. apply H4. intros i Hi. rewrite nth_error_app1 by lia. reflexivity.
Qed.

(** Batches *)
Fixpoint last_ok (e : rend) (ts : list tree) : Prop :=
  match ts with
  | [] => True
  | [t] => e_zero e = false \/ ends_empty t = false
  | _ :: ts' => last_ok e ts'
  end.

Lemma encode_batch0_emits ts : Forall ok0 ts -> emits (encode_batch0 ts) (concat (map wire0 ts)) tt.
Proof.
  induction 1 as [|t ts Ht _ IH]; cbn [encode_batch0 map concat]; [apply emits_ret|].
  eapply emits_bind; [apply encode0_emits, Ht|exact IH].
Qed.

Lemma batch0_wire ts : Forall ok0 ts -> forall fuel d e, (length ts < fuel)%nat ->
  d_r d = contr (concat (map wire0 ts)) e -> last_ok e ts ->
  exists d' vs, batch0 fuel d = (d', (vs, batch_end e)) /\ d_r d' = contr [] e /\ extends (d_heap d) (d_heap d') /\
    forall H, extends (d_heap d') H -> Forall2 (unfolds H) vs (map img0 ts).
Proof.
  induction 1 as [|t ts Ht Hts IH]; intros [|fuel] d e Hf Hr Hl; try (cbn in Hf; lia).
  - cbn [batch0 map concat] in *. unfold decode0, fuel_for. rewrite Hr. cbn [contr r_rest r_chunks concat length dec0].
    unfold dbind, read_byte, dbind, read_bytes, read. rewrite Hr. cbn [contr r_chunks]. change (1 =? 0) with false. cbn [andb contr r_end].
    eexists (set_r (contr [] e) d), []. split; [unfold batch_end; destruct (e_err e); reflexivity|]. split; [reflexivity|]. split; [apply extends_refl|]. intros. constructor.
  - cbn [map concat] in Hr. cbn [batch0].
    destruct (decode0_wire t d (concat (map wire0 ts)) e Ht Hr) as (d1 & v & E1 & R1 & X1 & U1).
    { unfold safe_end. destruct ts as [|t2 ts]; [cbn in Hl; tauto|].
      left. inversion Hts; subst. pose proof (wire0_nonempty t2 H1). cbn [map concat]. destruct (wire0 t2); [cbn in H; lia|discriminate]. }
    rewrite E1. cbn [length] in Hf.
    destruct (IH fuel d1 e) as (d2 & vs & E2 & R2 & X2 & U2); [lia|exact R1|destruct ts; [exact I|exact Hl]|].
    rewrite E2. exists d2, (v :: vs). split; [reflexivity|]. split; [exact R2|].
    split; [eapply extends_trans; eassumption|]. intros H HH. cbn [map]. constructor; [|apply U2, HH].
    apply U1. eapply extends_trans; eassumption.
Qed.

Lemma decode_batch0_wire ts d e : Forall ok0 ts -> d_r d = contr (concat (map wire0 ts)) e -> last_ok e ts ->
  exists d' vs, decode_batch0 d = (d', (vs, batch_end e)) /\ r_rest (d_r d') = [] /\ Forall2 (unfolds (d_heap d')) vs (map img0 ts).
Proof.
  intros Hok Hr Hl. unfold decode_batch0. rewrite (fuel_for_contr _ _ _ Hr).
  destruct (batch0_wire ts Hok (S (length (concat (map wire0 ts)))) d e) as (d' & vs & E & R & _ & U); try assumption.
  { pose proof (concat_wire_length ts Hok). lia. }
  exists d', vs. split; [exact E|]. split; [rewrite R; apply contr_rest|]. apply U, extends_refl.
Qed.

(** A DecodeBatch without error has consumed all the input, and never runs out of fuel. *)
Lemma batch0_done fuel : forall d, (rem d < fuel)%nat ->
  snd (snd (batch0 fuel d)) <> OutOfFuel /\ (snd (snd (batch0 fuel d)) = Ok tt -> r_rest (d_r (fst (batch0 fuel d))) = [] /\ e_err (r_end (d_r d)) = EEof).
Proof.
  induction fuel as [|f IH]; intros d Hd; [lia|]. cbn [batch0].
  assert (Hs : sane true true decode0 d) by (unfold sane, decode0; apply sane_dec0; unfold fuel_for, rem; lia).
  pose proof (tame_dec0 (fuel_for d) d) as [St Ht]. fold (decode0 d) in St, Ht.
  destruct Hs as (S1 & S2 & S3 & S4).
  destruct (decode0 d) as [d1 [v|e| |]]; cbn [fst snd] in *.
  - specialize (S4 eq_refl v eq_refl). specialize (IH d1 ltac:(lia)).
    destruct St as (_ & _ & _ & _ & _ & St & _). rewrite St in IH. destruct (batch0 f d1) as [d2 [vs r]]. exact IH.
  - destruct e; cbn [fst snd]; split; try discriminate. intros _. apply Ht. reflexivity.
  - split; discriminate.
  - congruence.
Qed.
Lemma batch0_not_eof fuel : forall d, snd (snd (batch0 fuel d)) <> Err EEof.
Proof.
  induction fuel as [|f IH]; intros d; cbn [batch0]; [discriminate|]. destruct (decode0 d) as [d1 [v|[]| |]]; try discriminate.
  specialize (IH d1). destruct (batch0 f d1) as [d2 [vs r]]. exact IH.
Qed.
