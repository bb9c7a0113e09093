(** What a user of a PES header object (package container/ts/table) sees: calls, histories and the headers made. *)
From Verif Require Import Base.Go Spec.Ts.

(** One call GeneratePesHeader(type, mediaLen, pts, dts); type 0 is video, 1 is audio. *)
Record pes_call := PesCall { pc_type : Z; pc_len : Z; pc_pts : Z; pc_dts : Z }.
Definition pc_media (c : pes_call) : bool := (pc_type c =? 0) || (pc_type c =? 1).
(** A call that writes both time stamps. *)
Definition pc_both (c : pes_call) : bool := (pc_type c =? 0) && negb (pc_pts c =? pc_dts c).
(** How many calls of a history wrote both. *)
Definition both_calls (cs : list pes_call) : Z := len (filter pc_both cs).
(** The decoding time written last, if any. *)
Definition last_dts (cs : list pes_call) : option Z :=
  match rev (filter pc_both cs) with c :: _ => Some (pc_dts c) | [] => None end.
(** A time as it is stored: 33 bits, the values above the largest one reduced by that largest value first. *)
Definition stored_time (t : Z) : Z := (if 2 ^ 33 - 1 <? t then t - (2 ^ 33 - 1) else t) mod 2 ^ 33.

(** The bytes of an adaptation field that only stuffs: [n] bytes in all, 1 to 256. *)
Definition is_stuffing_field (n : Z) (s : bytes) : Prop :=
  len s = n /\ nth_error s 0 = Some (n - 1) /\ (2 <= n -> nth_error s 1 = Some 0) /\
  forall i b, (2 <= i)%nat -> nth_error s i = Some b -> b = 0xff.
