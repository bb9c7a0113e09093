(** Property C216: what a decoder asks for over its life. *)
From Verif Require Import Base.Go Base.GoFacts Base.IO Base.Float64 Proofs.IOFacts Model.AmfTypes Model.Amf3 Model.Amf0 Model.AmfAlloc Model.AmfCalls Model.AmfLife
  Spec.Amf Spec.AmfAlloc Proofs.AmfFacts Proofs.Amf0RT Proofs.Amf0More Proofs.Amf3RT Proofs.AmfContr Proofs.AmfTerm Proofs.AmfAlloc Proofs.AmfAllocLow Proofs.AmfAllocUp Proofs.AmfCalls
  Props.AmfAlloc Props.AmfAllocUp Props.AmfCalls.
Local Open Scope Z_scope.

(** Calls made on one decoder, one after the other: for each what it asked for, the most calls active at one time, the number of bytes
    it took from its reader, and what it returned. *)
Record spent := mkSpent { s_made : list Z; s_active : Z; s_read : Z; s_got : list value * res unit }.
Fixpoint life (d : dstate) (cs : list dec_call) : list spent :=
  match cs with
  | [] => []
  | c :: cs' =>
      let '(d', got) := dec_step d c in
      mkSpent (fst (a_step d c)) (fst (c_step d c)) (len (r_rest (call_reader c)) - len (unread d')) got :: life d' cs'
  end.
Definition new_decoder : dstate := fresh (bytes_reader []).
Fixpoint sum (f : spent -> Z) (l : list spent) : Z := match l with [] => 0 | x :: l' => f x + sum f l' end.

(** The logs and the counts are those of the same calls. *)
Lemma a_batch_same (a : Am value) n (b : nat -> dstate -> dstate * (list value * res unit)) : er a n ->
  (forall d, b O d = (d, ([], OutOfFuel))) ->
  (forall f d, b (S f) d = match n d with
      | (d', Ok v) => let '(d'', (vs, r)) := b f d' in (d'', (v :: vs, r))
      | (d', Err EEof) => (d', ([], Ok tt))
      | (d', Err e) => (d', ([], Err e))
      | (d', Panic) => (d', ([], Panic))
      | (d', OutOfFuel) => (d', ([], OutOfFuel)) end) ->
  forall f d, snd (a_batch a f d) = b f d.
Proof.
  intros H B0 B1. induction f as [|f IH]; intros d; [symmetry; apply B0|]. rewrite B1. cbn [a_batch]. pose proof (H d) as E. destruct (a d) as [l [d' r]]. cbn [snd] in E. rewrite <- E.
  destruct r as [v|e| |]; try reflexivity; [|destruct e; reflexivity]. specialize (IH d'). destruct (a_batch a f d') as [l' [d'' [vs r]]]. cbn [snd] in *. rewrite <- IH. reflexivity.
Qed.
Lemma c_batch_same (a : Cm value) n (b : nat -> dstate -> dstate * (list value * res unit)) : cr a n ->
  (forall d, b O d = (d, ([], OutOfFuel))) ->
  (forall f d, b (S f) d = match n d with
      | (d', Ok v) => let '(d'', (vs, r)) := b f d' in (d'', (v :: vs, r))
      | (d', Err EEof) => (d', ([], Ok tt))
      | (d', Err e) => (d', ([], Err e))
      | (d', Panic) => (d', ([], Panic))
      | (d', OutOfFuel) => (d', ([], OutOfFuel)) end) ->
  forall f d, snd (c_batch a f d) = b f d.
Proof.
  intros H B0 B1. induction f as [|f IH]; intros d; [symmetry; apply B0|]. rewrite B1. cbn [c_batch]. pose proof (H d) as E. destruct (a d) as [l [d' r]]. cbn [snd] in E. rewrite <- E.
  destruct r as [v|e| |]; try reflexivity; [|destruct e; reflexivity]. specialize (IH d'). destruct (c_batch a f d') as [l' [d'' [vs r]]]. cbn [snd] in *. rewrite <- IH. reflexivity.
Qed.
Lemma er_decode0 : er a_decode0 decode0. Proof. intros d. apply er_dec0. Qed.
Lemma er_decode3 : er a_decode3 decode3. Proof. intros d. apply er_dec3. Qed.
Lemma cr_decode0 : cr c_decode0 decode0. Proof. intros d. apply cr_dec0. Qed.
Lemma cr_decode3 : cr c_decode3 decode3. Proof. intros d. apply cr_dec3. Qed.
Theorem C216_same : forall d c, snd (a_step d c) = dec_step d c /\ snd (c_step d c) = dec_step d c.
Proof.
  intros d c. destruct c as [r|r|r|r]; cbn [a_step c_step dec_step].
  - rewrite <- (er_decode0 (set_r r d)) at 1. rewrite <- (cr_decode0 (set_r r d)). destruct (a_decode0 _), (c_decode0 _). split; reflexivity.
  - split; [apply (a_batch_same _ _ batch0 er_decode0)|apply (c_batch_same _ _ batch0 cr_decode0)]; reflexivity.
  - rewrite <- (er_decode3 (set_r r d)) at 1. rewrite <- (cr_decode3 (set_r r d)). destruct (a_decode3 _), (c_decode3 _). split; reflexivity.
  - split; [apply (a_batch_same _ _ batch3 er_decode3)|apply (c_batch_same _ _ batch3 cr_decode3)]; reflexivity.
Qed.
Print Assumptions C216_same.

(** One Decode: everything at once. *)
Lemma decode_costs (a : Am value) (c : Cm value) n : (a = a_decode0 /\ c = c_decode0 /\ n = decode0 \/ a = a_decode3 /\ c = c_decode3 /\ n = decode3) -> forall d, fair d ->
  fair (fst (n d)) /\ exists p, r_rest (d_r d) = p ++ r_rest (d_r (fst (n d))) /\
    total (fst (a d)) <= K * len p + match snd (n d) with Ok _ => 0 | _ => 8 end /\
    2 * fst (c d) <= len p + 3 /\ match snd (n d) with Ok _ => 1 <= len p | _ => True end.
Proof.
  intros H d G.
  assert (U : uq 0 any w0 a) by (destruct H as [(-> & _)|(-> & _)]; intros x; [apply uq_dec0|apply uq_dec3]).
  assert (E : er a n) by (destruct H as [(-> & _ & ->)|(-> & _ & ->)]; [apply er_decode0|apply er_decode3]).
  assert (R : cr c n) by (destruct H as [(_ & -> & ->)|(_ & -> & ->)]; [apply cr_decode0|apply cr_decode3]).
  assert (C : cq 3 any c) by (destruct H as [(_ & -> & _)|(_ & -> & _)]; intros x Gx; [exact (cq_dec0 _ x Gx)|exact (cq_weak 2 3 any any (c_dec3 (fuel_for x)) (cq_dec3 _) (fun _ h => h) ltac:(lia) x Gx)]).
  assert (S : exists ap, sane ap true n d) by (destruct H as [(_ & _ & ->)|(_ & _ & ->)]; eexists; [apply (sane_dec0 (fuel_for d) d)|apply (sane_dec3 (fuel_for d) d)]; unfold fuel_for, rem; lia).
  clear H. specialize (U d G). specialize (C d G). specialize (E d). specialize (R d). destruct S as (ap & _ & _ & _ & S). specialize (S eq_refl).
  destruct (a d) as [l x]. destruct (c d) as [k y]. cbn [fst snd] in *. subst x y. destruct (n d) as [d' r]. cbn [fst snd] in *.
  destruct U as (G' & p & Hp & U). destruct C as (_ & _ & p2 & Hp2 & C & _). assert (p2 = p) by (apply (app_inv_tail (r_rest (d_r d'))); congruence). subst p2.
  split; [exact G'|]. exists p. split; [exact Hp|]. split; [unfold w0 in U; destruct r as [v|e| |]; lia|]. split; [exact C|].
  destruct r as [v|e| |]; auto. specialize (S v eq_refl). unfold rem in S. rewrite Hp, app_length in S. unfold len. lia.
Qed.
Lemma batch_costs (a : Am value) (c : Cm value) n (b : nat -> dstate -> dstate * (list value * res unit)) :
  (a = a_decode0 /\ c = c_decode0 /\ n = decode0 \/ a = a_decode3 /\ c = c_decode3 /\ n = decode3) ->
  (forall d, b O d = (d, ([], OutOfFuel))) ->
  (forall f d, b (S f) d = match n d with
      | (d', Ok v) => let '(d'', (vs, r)) := b f d' in (d'', (v :: vs, r))
      | (d', Err EEof) => (d', ([], Ok tt))
      | (d', Err e) => (d', ([], Err e))
      | (d', Panic) => (d', ([], Panic))
      | (d', OutOfFuel) => (d', ([], OutOfFuel)) end) ->
  forall f d, fair d -> fair (fst (b f d)) /\ exists p, r_rest (d_r d) = p ++ r_rest (d_r (fst (b f d))) /\
    total (fst (a_batch a f d)) <= K * len p + 8 /\ 2 * fst (c_batch c f d) <= len p + 3 /\ len (fst (snd (b f d))) <= len p.
Proof.
  intros H B0 B1. induction f as [|f IH]; intros d G.
  - rewrite B0. cbn [fst snd a_batch c_batch total]. split; [exact G|]. exists []. split; [reflexivity|]. change (len (@nil Z)) with 0. change (len (@nil value)) with 0. lia.
  - rewrite B1. cbn [a_batch c_batch]. destruct (decode_costs a c n H d G) as (G1 & p & Hp & HM & HC & HS).
    assert (E : er a n) by (destruct H as [(-> & _ & ->)|(-> & _ & ->)]; [apply er_decode0|apply er_decode3]).
    assert (R : cr c n) by (destruct H as [(_ & -> & ->)|(_ & -> & ->)]; [apply cr_decode0|apply cr_decode3]).
    specialize (E d). specialize (R d). destruct (a d) as [l x]. destruct (c d) as [k y]. cbn [fst snd] in *. subst x y.
    destruct (n d) as [d' r]. cbn [fst snd] in *. pose proof (len_nonneg p) as LP.
    destruct r as [v|e| |].
    + destruct (IH d' G1) as (G2 & p2 & Hp2 & HM2 & HC2 & HL2). pose proof (len_nonneg p2) as LP2.
      destruct (a_batch a f d') as [l2 [da [va ra]]]. destruct (c_batch c f d') as [k2 [dc [vc rc]]]. destruct (b f d') as [d2 [vs r2]]. cbn [fst snd] in *.
      split; [exact G2|]. exists (p ++ p2). rewrite len_app, total_app, len_cons. split; [rewrite <- app_assoc, <- Hp2; exact Hp|]. lia.
    + assert (X : forall y : res unit, fair (fst (d', (@nil value, y))) /\ exists p0, r_rest (d_r d) = p0 ++ r_rest (d_r (fst (d', (@nil value, y)))) /\
        total l <= K * len p0 + 8 /\ 2 * k <= len p0 + 3 /\ len (@nil value) <= len p0).
      { intros y. split; [exact G1|]. exists p. change (len (@nil value)) with 0. split; [exact Hp|]. lia. }
      destruct e; cbn [fst snd]; apply (X (Ok tt)).
    + split; [exact G1|]. exists p. cbn [fst snd]. change (len (@nil value)) with 0. split; [exact Hp|]. lia.
    + split; [exact G1|]. exists p. cbn [fst snd]. change (len (@nil value)) with 0. split; [exact Hp|]. lia.
Qed.
Lemma step_costs d c : fair (set_r (call_reader c) d) -> fair (fst (dec_step d c)) /\ exists p, r_rest (call_reader c) = p ++ unread (fst (dec_step d c)) /\
  total (fst (a_step d c)) <= K * len p + 8 /\ 2 * fst (c_step d c) <= len p + 3 /\ len (fst (snd (dec_step d c))) <= len p.
Proof.
  assert (One : forall x, fst (one x) = fst x /\ fst (snd (one x)) = match snd x with Ok v => [v] | _ => [] end) by (intros [y [v|e| |]]; split; reflexivity).
  intros G. destruct c as [r|r|r|r]; cbn [dec_step a_step c_step call_reader] in *.
  - destruct (decode_costs a_decode0 c_decode0 decode0 ltac:(auto) _ G) as (G1 & p & Hp & HM & HC & HS). pose proof (len_nonneg p). destruct (One (decode0 (set_r r d))) as [O1 O2].
    unfold unread. rewrite O1, O2. split; [exact G1|]. exists p. split; [exact Hp|]. destruct (a_decode0 _), (c_decode0 _). cbn [fst snd] in *.
    destruct (snd (decode0 (set_r r d))); [change (len [a]) with 1|change (len (@nil value)) with 0..]; lia.
  - destruct (batch_costs a_decode0 c_decode0 decode0 batch0 ltac:(auto) ltac:(reflexivity) ltac:(reflexivity) (fuel_for (set_r r d)) _ G) as (G1 & p & Hp & HB).
    split; [exact G1|]. exists p. split; [exact Hp|exact HB].
  - destruct (decode_costs a_decode3 c_decode3 decode3 ltac:(auto) _ G) as (G1 & p & Hp & HM & HC & HS). pose proof (len_nonneg p). destruct (One (decode3 (set_r r d))) as [O1 O2].
    unfold unread. rewrite O1, O2. split; [exact G1|]. exists p. split; [exact Hp|]. destruct (a_decode3 _), (c_decode3 _). cbn [fst snd] in *.
    destruct (snd (decode3 (set_r r d))); [change (len [a]) with 1|change (len (@nil value)) with 0..]; lia.
  - destruct (batch_costs a_decode3 c_decode3 decode3 batch3 ltac:(auto) ltac:(reflexivity) ltac:(reflexivity) (fuel_for (set_r r d)) _ G) as (G1 & p & Hp & HB).
    split; [exact G1|]. exists p. split; [exact Hp|exact HB].
Qed.

(** Any calls on a new decoder, with any readers: every call reads at most what its reader holds, returns at most as many values as it
    reads bytes, and has at most one and a half more calls active than half the bytes it reads; and all of them together ask for about a
    gibibyte for every byte they read, and eight bytes for every call. *)
Definition within (c : dec_call) (s : spent) : Prop :=
  0 <= s_read s <= len (r_rest (call_reader c)) /\ len (fst (s_got s)) <= s_read s /\ 2 * s_active s <= s_read s + 3 /\ total (s_made s) <= (2 ^ 30 + 1) * s_read s + 8.
Lemma life_costs cs : forall d, (forall r, is_bytes (r_rest r) -> fair (set_r r d)) -> Forall (fun c => is_bytes (r_rest (call_reader c))) cs ->
  Forall2 within cs (life d cs) /\ sum (fun s => total (s_made s)) (life d cs) <= (2 ^ 30 + 1) * sum s_read (life d cs) + 8 * len cs.
Proof.
  change (2 ^ 30 + 1) with 1073741825. induction cs as [|c cs IH]; intros d G HB; [split; [constructor|cbn [life sum]; change (len []) with 0; lia]|].
  inversion_clear HB as [|c0 cs0 Hc Hcs]. cbn [life]. destruct (step_costs d c (G _ Hc)) as (G1 & p & Hp & HM & HC & HL). pose proof (len_nonneg p) as LP.
  destruct (dec_step d c) as [d' got]. cbn [fst snd] in *.
  assert (G' : forall r, is_bytes (r_rest r) -> fair (set_r r d')) by (intros r Hr; destruct G1 as [_ G1]; split; [exact Hr|exact G1]).
  destruct (IH d' G' Hcs) as [I1 I2]. assert (L : len (r_rest (call_reader c)) - len (unread d') = len p) by (rewrite Hp, len_app; lia). rewrite L.
  split; [constructor; [|exact I1]|].
  - unfold within. cbn [s_read s_made s_active s_got]. change (2 ^ 30 + 1) with 1073741825. pose proof (len_nonneg (unread d')). lia.
  - cbn [sum s_read s_made]. rewrite len_cons. lia.
Qed.
Theorem C216_life : forall cs, Forall (fun c => is_bytes (r_rest (call_reader c))) cs ->
  Forall2 within cs (life new_decoder cs) /\
  sum (fun s => total (s_made s)) (life new_decoder cs) <= (2 ^ 30 + 1) * sum s_read (life new_decoder cs) + 8 * len cs.
Proof. intros cs HB. apply life_costs; [|exact HB]. intros r Hr. split; [exact Hr|split; constructor]. Qed.
Print Assumptions C216_life.

(** Nothing is kept from one call to the next that would stop this: the same six bytes given to Decode again and again ask for about 4 GiB
    every time. *)
Lemma life_again e k : forall d, (forall r, is_bytes (r_rest r) -> fair (set_r r d)) ->
  Z.of_nat k * (2 ^ 32 - 16) <= sum (fun s => total (s_made s)) (life d (repeat (Decode3 (cont (nest 1) e)) k)).
Proof.
  induction k as [|k IH]; intros d G; [cbn [repeat life sum]; lia|]. set (c := Decode3 (cont (nest 1) e)) in *. cbn [repeat life].
  assert (HB : is_bytes (r_rest (cont (nest 1) e))) by (rewrite cont_contr, contr_rest; repeat constructor; unfold byte; lia).
  destruct (step_costs d c (G _ HB)) as (G1 & _). destruct (dec_step d c) as [d' got] eqn:ES. cbn [fst] in G1.
  assert (G' : forall r, is_bytes (r_rest r) -> fair (set_r r d')) by (intros r Hr; destruct G1 as [_ G1]; split; [exact Hr|exact G1]).
  specialize (IH d' G'). cbn [sum s_made].
  assert (X : 1 * (2 ^ 32 - 16) <= total (fst (a_step d c))).
  { unfold c. cbn [a_step]. pose proof (nest_log 1 (fuel_for (set_r (cont (nest 1) e) d)) (set_r (cont (nest 1) e) d) e) as N. rewrite cont_contr in *.
    specialize (N ltac:(unfold fuel_for; cbn [set_r d_r]; rewrite contr_rest; cbn; lia) (G _ HB) eq_refl). unfold a_decode3. destruct (a_dec3 _ _). exact N. }
  rewrite Nat2Z.inj_succ. change (2 ^ 32 - 16) with 4294967280 in *. lia.
Qed.
Theorem C216_again : forall k e, Z.of_nat k * (2 ^ 32 - 16) <= sum (fun s => total (s_made s)) (life new_decoder (repeat (Decode3 (cont (nest 1) e)) k)).
Proof. intros k e. apply life_again. intros r Hr. split; [exact Hr|split; constructor]. Qed.
Print Assumptions C216_again.
(** An array of one string and a reference to it, then a batch of two AMF0 values of which the second is that AMF3 array again. *)
Example C216_example : map (fun s => (s_made s, s_active s, s_read s, snd (s_got s)))
    (life new_decoder [Decode3 (bytes_reader [9; 3; 1; 6; 3; 97]); Batch0 (bytes_reader [1; 1; 17; 9; 0])]) =
  [([1; 1; 1; 16; 1; 1; 1], 2, 6, Ok tt); ([1; 1; 1; 1; 1; 1], 2, 5, Ok tt)].
Proof. vm_compute. reflexivity. Qed.
