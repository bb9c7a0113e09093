(** Properties C29 and C30: container/ts/crc32.go. *)
From Verif Require Import Base.Go Base.GoFacts Model.Crc32 Spec.Crc32 Proofs.Crc32.

(** ** C29 *)
Theorem C29_crc_is_mpeg2 : forall s, is_bytes s -> generate_crc32 s = crc_mpeg2 s.
Proof. intros s H. unfold generate_crc32, crc_mpeg2, crc_of_bits. change (2 ^ 32 - 1) with 4294967295. apply crc_fold; [unfold reg; cbn; lia|exact H]. Qed.
Print Assumptions C29_crc_is_mpeg2.
(** The check value of the algorithm: "123456789". *)
Example C29_example : crc_mpeg2 [49; 50; 51; 52; 53; 54; 55; 56; 57] = 0x0376E6E7. Proof. reflexivity. Qed.

(** ** C30 *)
Theorem C30_residue : forall s, is_bytes s -> generate_crc32 (s ++ be32 (generate_crc32 s)) = 0.
Proof. intros s H. unfold generate_crc32 at 1. rewrite fold_left_app. apply residue. apply reg_crc, H. Qed.
Print Assumptions C30_residue.
(** The CRC is a 32-bit number, so appending it big-endian loses nothing. *)
Theorem C30_range : forall s, is_bytes s -> 0 <= generate_crc32 s < 2 ^ 32.
Proof. exact reg_crc. Qed.
Print Assumptions C30_range.
(** Two messages of the same length that differ only within a window of at most 32 bits. *)
Theorem C30_burst_detected : forall s1 s2 pre w1 w2 post, is_bytes s1 -> is_bytes s2 ->
  bits_of s1 = pre ++ w1 ++ post -> bits_of s2 = pre ++ w2 ++ post -> length w1 = length w2 -> (length w1 <= 32)%nat -> s1 <> s2 ->
  generate_crc32 s1 <> generate_crc32 s2.
Proof.
  intros s1 s2 pre w1 w2 post H1 H2 E1 E2 HL H32 Hne E.
  rewrite !C29_crc_is_mpeg2 in E by assumption. unfold crc_mpeg2, crc_of_bits in E. rewrite E1, E2, !fold_left_app in E.
  set (r := fold_left bit_step pre (2 ^ 32 - 1)) in E. assert (Hr : reg r) by (apply reg_fold; unfold reg; cbn; lia).
  apply post_inj in E; [|apply reg_fold, Hr|apply reg_fold, Hr]. apply window_inj in E; [|assumption..]. subst w2.
  apply Hne. assert (EB : bits_of s1 = bits_of s2) by congruence. clear - EB H1 H2.
  revert s2 H2 EB. induction s1 as [|a s1 IH]; intros [|b s2] H2 EB; try reflexivity; try discriminate.
  inversion H1 as [|? ? A1 A2]; inversion H2 as [|? ? B1 B2]; subst. unfold bits_of in EB. cbn [flat_map] in EB.
  assert (EH : bits_of_byte a = bits_of_byte b) by (apply (f_equal (firstn 8)) in EB; exact EB).
  assert (ET : bits_of s1 = bits_of s2) by (apply (f_equal (skipn 8)) in EB; exact EB).
  f_equal; [|apply IH; assumption]. rewrite <- (bval_byte a), <- (bval_byte b), EH by assumption. reflexivity.
Qed.
Print Assumptions C30_burst_detected.
(** A received section that passes the check (CRC of everything, CRC field included, is zero) stops passing it
    after any such corruption. *)
Theorem C30_corrupted_section_rejected : forall s t pre w1 w2 post, is_bytes s -> is_bytes t ->
  bits_of (s ++ be32 (generate_crc32 s)) = pre ++ w1 ++ post -> bits_of t = pre ++ w2 ++ post ->
  length w1 = length w2 -> (length w1 <= 32)%nat -> t <> s ++ be32 (generate_crc32 s) -> generate_crc32 t <> 0.
Proof.
  intros s t pre w1 w2 post Hs Ht E1 E2 HL H32 Hne. rewrite <- (C30_residue s Hs). intros E.
  refine (C30_burst_detected _ _ _ _ _ _ _ Ht E1 E2 HL H32 (fun X => Hne (eq_sym X)) (eq_sym E)).
  apply is_bytes_app. split; [exact Hs|apply is_bytes_be32].
Qed.
Print Assumptions C30_corrupted_section_rejected.
Example C30_example : bits_of [1; 2] = [false] ++ [false; false; false; false; false; false; true; false; false] ++ [false; false; false; false; true; false] /\
  bits_of [64; 2] = [false] ++ [true; false; false; false; false; false; false; false; false] ++ [false; false; false; false; true; false].
Proof. split; reflexivity. Qed.
