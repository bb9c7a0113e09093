(** SendTo while packets are being written, over the list of the pointers written (Spec/GopPtr.v): no ring.
    The groups are numbered from 0 in the order in which they were opened. SendTo visits the numbers modulo N, from that of
    the oldest group kept, and of each takes the latest group. *)
From Verif Require Import Base.Go Model.Packet Model.Gop Model.GopPtr Model.GopLive Spec.Gop Spec.GopPtr.

(** The latest of the groups whose number is c modulo N; j is the number of the first of the list. *)
Fixpoint latest_with {A} (N c j : nat) (gs : list A) (best : option A) : option A :=
  match gs with
  | [] => best
  | g :: gs' => latest_with N c (S j) gs' (if (j mod N =? c)%nat then Some g else best)
  end.
Definition group_now (N c : nat) (h : history) : option (list nat) := latest_with N c 0 (groups h) None.

Fixpoint record_all (N : nat) (v : nat -> packet) (h : history) (ks : list nat) : history * res unit :=
  match ks with
  | [] => (h, Ok tt)
  | k :: ks' => match record N h (kind_of (v k)) k with (h', Panic) => (h', Panic) | (h', _) => record_all N v h' ks' end
  end.
Definition spec_call {S} (at_ : S -> nat -> packet) (N : nat) (wr : live_writer S) (k : nat) (x : history * S) : (history * S) * res unit :=
  let '(s, (ks, r)) := wr k (snd x) in
  let '(h, rw) := record_all N (at_ s) (fst x) ks in
  ((h, s), match rw with Ok _ => r | _ => rw end).
(** n packets from the i-th on of the group that has, at each moment, number c modulo N. *)
Fixpoint spec_group {S} (at_ : S -> nat -> packet) (N : nat) (wr : live_writer S) (c n i : nat) (x : history * S) : (history * S) * res unit :=
  match n with
  | O => (x, Ok tt)
  | Datatypes.S n' =>
      match group_now N c (fst x) with
      | Some g => match nth_error g i with
                  | Some k => pseq (spec_call at_ N wr k x) (spec_group at_ N wr c n' (Datatypes.S i))
                  | None => (x, Panic)
                  end
      | None => (x, Panic)
      end
  end.
(** The groups from the i-th on, n = N - i at most: as many as there are at that moment. Each has as many packets to send as when
    its turn comes. *)
Fixpoint spec_groups {S} (at_ : S -> nat -> packet) (N : nat) (wr : live_writer S) (start n i : nat) (x : history * S) : (history * S) * res unit :=
  match n with
  | O => (x, Ok tt)
  | Datatypes.S n' =>
      if (i <? length (groups (fst x)))%nat then
        let c := ((start + i) mod N)%nat in
        match group_now N c (fst x) with
        | Some g => pseq (spec_group at_ N wr c (length g) 0 x) (spec_groups at_ N wr start n' (Datatypes.S i))
        | None => (x, Panic)
        end
      else (x, Ok tt)
  end.
Definition spec_gop_send {S} (at_ : S -> nat -> packet) (N : nat) (wr : live_writer S) (x : history * S) : (history * S) * res unit :=
  spec_groups at_ N wr ((length (groups (fst x)) - N) mod N)%nat N 0 x.
Definition spec_header {S} (at_ : S -> nat -> packet) (N : nat) (wr : live_writer S) (y : kind) (x : history * S) : (history * S) * res unit :=
  match last_of y (fst x) with [] => (x, Ok tt) | k :: _ => spec_call at_ N wr k x end.
Definition spec_send {S} (at_ : S -> nat -> packet) (N : nat) (wr : live_writer S) (x : history * S) : (history * S) * res unit :=
  pseq (spec_header at_ N wr KMeta x) (fun x =>
  pseq (spec_header at_ N wr KVideoSeq x) (fun x =>
  pseq (spec_header at_ N wr KAudioSeq x) (spec_gop_send at_ N wr))).

Definition spec_live_step {S} (at_ : S -> nat -> packet) (N : nat) (x : history * S) (o : live_op S) : (history * S) * res unit :=
  match o with
  | LOp o => let '(h, (s, r)) := spec_step at_ N (fst x) (snd x) o in ((h, s), r)
  | LSend wr => spec_send at_ N wr x
  | LGopSend wr => spec_gop_send at_ N wr x
  end.
Fixpoint spec_live_run {S} (at_ : S -> nat -> packet) (N : nat) (x : history * S) (os : list (live_op S)) : (history * S) * list (res unit) :=
  match os with
  | [] => (x, [])
  | o :: os' => let '(x1, r) := spec_live_step at_ N x o in let '(x2, rs) := spec_live_run at_ N x1 os' in (x2, r :: rs)
  end.
