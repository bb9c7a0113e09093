(** Property C214: how much memory a Decode call can ask for, whatever it reads. *)
From Verif Require Import Base.Go Base.GoFacts Base.IO Base.Float64 Proofs.IOFacts Model.AmfTypes Model.Amf3 Model.Amf0 Model.AmfAlloc
  Spec.Amf Spec.AmfAlloc Proofs.AmfFacts Proofs.Amf0RT Proofs.Amf0More Proofs.Amf3RT Proofs.AmfContr Proofs.AmfAlloc Proofs.AmfAllocLow Proofs.AmfAllocUp Props.AmfAlloc.
Local Open Scope Z_scope.

(** Any reader, any decoder history, any result: about a gibibyte for every byte that is read, and eight bytes. *)
Theorem C214_bound : forall a d l d' r, a = a_decode0 \/ a = a_decode3 -> is_bytes (unread d) -> plain_tables d -> a d = (l, (d', r)) ->
  total l <= (2 ^ 30 + 1) * (len (unread d) - len (unread d')) + 8.
Proof.
  intros a d l d' r Ha HB HP E. pose proof (plain_fair d HB HP) as G. change (2 ^ 30 + 1) with 1073741825.
  assert (H : exists p, r_rest (d_r d) = p ++ r_rest (d_r d') /\ total l <= 1073741825 * len p + 8).
  { destruct Ha as [-> | ->]; [pose proof (uq_dec0 (fuel_for d) d G) as H|pose proof (uq_dec3 (fuel_for d) d G) as H]; unfold a_decode0, a_decode3 in E; rewrite E in H;
      destruct H as (_ & p & Hp & H); exists p; (split; [exact Hp|]); unfold w0 in H; destruct r; lia. }
  destruct H as (p & Hp & H). unfold unread. rewrite Hp, len_app. lia.
Qed.
Print Assumptions C214_bound.

(** That much is asked for: an array of 2^28 - 1 elements, the first of which is such an array, and so on. Every array takes six bytes and
    asks for 2^32 - 16, all of them at the same time. *)
Fixpoint nest (k : nat) : bytes := match k with O => [] | S k => 9 :: wire_u29 (2 * 268435455 + 1) ++ wire_u29 (2 * 0 + 1) ++ nest k end.
Lemma lq_nonneg {A} (Q : A -> Prop) w (m : Am A) d : lq Q w m -> fair d -> 0 <= total (fst (m d)).
Proof. intros H G. specialize (H d G). destruct (m d) as [l [d' r]]. destruct H as (_ & p & _ & L & _). pose proof (len_nonneg p). cbn [fst]. lia. Qed.
Lemma abind_log {A B} Q w (m : Am A) (k : A -> Am B) d : lq Q w m -> (forall x, Q x -> lq any w0 (k x)) -> fair d -> total (fst (m d)) <= total (fst (abind m k d)).
Proof.
  intros Hm Hk G. specialize (Hm d G). unfold abind. destruct (m d) as [l [d1 [x|er| |]]]; cbn [fst]; try apply Z.le_refl.
  destruct Hm as (G1 & _ & _ & _ & HQ & _). pose proof (lq_nonneg any w0 (k x) d1 (Hk x HQ) G1). destruct (k x d1) as [l' y]. cbn [fst] in *. rewrite total_app. lia.
Qed.
Lemma u29_log d v rest e : 0 <= v < 268435456 -> d_r d = contr (wire_u29 (2 * v + 1) ++ rest) e ->
  exists l, a_decode_u29 d = (l, (set_r (contr rest e) d, Ok (false, v))) /\ 0 <= total l.
Proof.
  intros Hv Hr. pose proof (er_du29 d) as H. rewrite (decode_u29_contr d v rest e Hv Hr) in H. pose proof (nn_du29 d) as N.
  destruct (a_decode_u29 d) as [l y]. cbn [fst snd] in *. exists l. subst y. split; [reflexivity|exact N].
Qed.
Lemma nest_log k : forall f d e, (k < f)%nat -> fair d -> d_r d = contr (nest k) e -> Z.of_nat k * 4294967280 <= total (fst (a_dec3 f d)).
Proof.
  induction k as [|k IH]; intros f d e Hf G Hr; [eapply (lq_nonneg any wv); [apply lq_dec3|exact G]|].
  destruct f as [|f]; [lia|]. cbn [nest] in Hr. set (X := wire_u29 (2 * 268435455 + 1) ++ wire_u29 (2 * 0 + 1) ++ nest k) in *.
  assert (B : a_read_byte d = ([1], (set_r (contr X e) d, Ok 9))).
  { pose proof (er_read_byte d) as H. rewrite (read_byte_contr _ _ _ _ Hr) in H. rewrite <- H.
    unfold a_read_byte, a_read_bytes, abind, make_, lift in *. destruct (read_bytes 1 d) as [d1 [y|y| |]]; reflexivity. }
  cbn [a_dec3]. rewrite (abind_ok _ _ _ _ _ _ B). cbn [fst]. rewrite total_app. change (total [1]) with 1. cbn [Z.eqb Pos.eqb orb].
  assert (G1 : fair (set_r (contr X e) d)) by (apply (fair_suffix d _ [9] G); rewrite Hr, !contr_rest; reflexivity).
  set (d1 := set_r _ d) in *. destruct (u29_log d1 268435455 (wire_u29 (2 * 0 + 1) ++ nest k) e ltac:(lia) eq_refl) as (l1 & E1 & N1).
  unfold a_decode_array3. rewrite (abind_ok _ _ _ _ _ _ E1). cbn [fst]. rewrite total_app. cbn iota beta.
  assert (G2 : fair (set_r (contr (wire_u29 (2 * 0 + 1) ++ nest k) e) d1)) by (apply (fair_suffix d1 _ (wire_u29 (2 * 268435455 + 1)) G1); unfold d1; cbn [set_r d_r]; rewrite !contr_rest; reflexivity).
  set (d2 := set_r _ d1) in *. destruct (u29_log d2 0 (nest k) e ltac:(lia) eq_refl) as (l2 & E2 & N2).
  assert (G3 : fair (set_r (contr (nest k) e) d2)) by (apply (fair_suffix d2 _ (wire_u29 (2 * 0 + 1)) G2); unfold d2; cbn [set_r d_r]; rewrite !contr_rest; reflexivity).
  set (d3 := set_r (contr (nest k) e) d2) in *.
  assert (S2 : a_decode_string3 d2 = (l2 ++ [], (d3, Ok []))) by (unfold a_decode_string3; rewrite (abind_ok _ _ _ _ _ _ E2); reflexivity).
  rewrite (abind_ok _ _ _ _ _ _ S2). cbn [fst]. rewrite !total_app. cbn [total].
  assert (P : forall v d, lift (obj3_push v) d = ([], (fst (obj3_push v d), Ok tt))) by reflexivity.
  rewrite (abind_ok _ _ _ _ _ _ (P _ _)). cbn [fst]. rewrite total_app. cbn [total].
  set (d4 := fst (obj3_push (VEcma [] None) d3)). assert (G4 : fair d4) by (apply fair_push; [exact G3|reflexivity]).
  assert (AL : lift alloc d4 = ([], (set_heap (d_heap d4 ++ [[]]) d4, Ok (length (d_heap d4))))) by reflexivity.
  rewrite (abind_ok _ _ _ _ _ _ AL). cbn [fst]. rewrite total_app. cbn [total].
  set (d5 := set_heap _ d4). assert (G5 : fair d5) by exact G4.
  assert (MK : make_ (16 * 268435455) d5 = ([16 * 268435455], (d5, Ok tt))) by reflexivity.
  rewrite (abind_ok _ _ _ _ _ _ MK). cbn [fst]. rewrite total_app. cbn [total].
  assert (AS : a_assoc_loop (a_dec3 f) f (length (d_heap d4)) [] d5 = ([], (d5, Ok tt))) by (destruct f; reflexivity).
  rewrite (abind_ok _ _ _ _ _ _ AS). cbn [fst]. rewrite total_app. cbn [total].
  destruct f as [|f]; [lia|].
  assert (D0 : lq any w0 (a_dec3 (S f))) by (eapply w0_weak; [apply lq_dec3|intros; apply wv_nonneg]).
  specialize (IH (S f) d5 e ltac:(lia) G5 eq_refl).
  pose proof (abind_log _ w0 (a_loop_n (a_dec3 (S f)) (S f) 268435455) (fun dense => lift (dret (VEcma dense (Some (length (d_heap d4)))))) d5
    (lq_loop _ D0 (S f) 268435455 ltac:(lia)) ltac:(intros; apply lq_ret; unfold w0; lia) G5) as Q1.
  pose proof (abind_log any w0 (a_dec3 (S f)) (fun x => a* xs := a_loop_n (a_dec3 (S f)) f (268435455 - 1) in lift (dret (x :: xs))) d5 D0) as Q2.
  specialize (Q2 ltac:(intros x _; eapply lq_seq; [apply lq_loop; [exact D0|lia]|]; intros xs _; apply lq_ret; unfold w0; lia) G5).
  assert (Q3 : total (fst (a_dec3 (S f) d5)) <= total (fst (a_loop_n (a_dec3 (S f)) (S f) 268435455 d5))) by exact Q2.
  clear Q2. rewrite Nat2Z.inj_succ. lia.
Qed.
Theorem C214_nested : forall k d e, is_bytes (unread d) -> plain_tables d -> d_r d = cont (nest k) e ->
  len (unread d) = 6 * Z.of_nat k /\ Z.of_nat k * (2 ^ 32 - 16) <= total (fst (a_decode3 d)).
Proof.
  intros k d e HB HP Hr. rewrite cont_contr in Hr. assert (LN : len (nest k) = 6 * Z.of_nat k).
  { clear. induction k as [|k IH]; [reflexivity|]. cbn [nest]. rewrite len_cons, !len_app, IH. change (len (wire_u29 _)) with 4 at 1. change (len (wire_u29 _)) with 1. lia. }
  split; [unfold unread; rewrite Hr, contr_rest; exact LN|]. unfold a_decode3. rewrite (fuel_for_contr _ _ _ Hr).
  apply (nest_log k _ _ e); [unfold len in LN; lia|now apply plain_fair|exact Hr].
Qed.
Print Assumptions C214_nested.
Example C214_example : nest 2 = [9; 255; 255; 255; 255; 1; 9; 255; 255; 255; 255; 1] /\ plain_tables (fresh (bytes_reader (nest 2))) /\
  a_decode3 (fresh (bytes_reader (nest 2))) = ([1; 1; 1; 1; 1; 1; 2 ^ 32 - 16; 1; 1; 1; 1; 1; 1; 2 ^ 32 - 16; 1], snd (a_decode3 (fresh (bytes_reader (nest 2))))) /\
  snd (snd (a_decode3 (fresh (bytes_reader (nest 2))))) = Err EEof.
Proof. split; [vm_compute; reflexivity|]. split; [split; [intros ? []|intros ? ? ? []]|]. split; vm_compute; reflexivity. Qed.
