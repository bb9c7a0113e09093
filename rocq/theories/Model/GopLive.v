(** SendTo while packets are being written to the same cache: the writer that SendTo calls may call Cache.Write, as a
    publisher served by the same goroutine between two of its calls would. The loops of array.go and gop.go read the
    cache again at every step; what they have read before (l, baseIndex, the *array) stays. Simplified: the packets
    written during a call of Write have the contents they have when it returns, and the writer does not look at the
    results of its Cache.Write calls, except that a panic is not recovered. No nil pointers. *)
From Verif Require Import Base.Go Model.Packet Model.Gop Model.GopPtr.

(** A packet.Writer: the next state, the pointers given to Cache.Write, and the result. *)
Definition live_writer (S : Type) := nat -> S -> S * (list nat * res unit).

(** Calls of Cache.Write, cache.go:56-74. *)
Fixpoint write_all (v : nat -> packet) (c : cache_of_type nat) (ks : list nat) : cache_of_type nat * res unit :=
  match ks with
  | [] => (c, Ok tt)
  | k :: ks' => match cache_write_at v c k with (c', Panic) => (c', Panic) | (c', _) => write_all v c' ks' end
  end.
(** w.Write(p) in array.go:43 and frame.go:29. *)
Definition live_call {S} (at_ : S -> nat -> packet) (wr : live_writer S) (k : nat) (x : cache_of_type nat * S) : (cache_of_type nat * S) * res unit :=
  let '(s, (ks, r)) := wr k (snd x) in
  let '(c, rw) := write_all (at_ s) (fst x) ks in
  ((c, s), match rw with Ok _ => r | _ => rw end).
(** array.go:41-48, the loop of sendTo, from counter i with n = l - i. The array is the one in slot [idx]: gop.go:44 never
    replaces an array, and reset (array.go:22-24) shortens it. An index that is out of range by now panics. *)
Fixpoint live_array {S} (at_ : S -> nat -> packet) (wr : live_writer S) (idx : Z) (n i : nat) (x : cache_of_type nat * S) : (cache_of_type nat * S) * res unit :=
  match n with
  | O => (x, Ok tt)
  | Datatypes.S n' =>
      match slot (g_gops (c_gop (fst x))) idx with
      | Ok (Some a) => match nth_error a i with
                       | Some p => pseq (live_call at_ wr p x) (live_array at_ wr idx n' (Datatypes.S i))
                       | None => (x, Panic)
                       end
      | _ => (x, Panic)
      end
  end.
(** gop.go:76-84, the loop of SendTo, from counter i; g.len is read at every turn and never exceeds g.cap (proved), which bounds
    the turns. *)
Fixpoint live_gops {S} (at_ : S -> nat -> packet) (wr : live_writer S) (fuel : nat) (base i : Z) (x : cache_of_type nat * S) : (cache_of_type nat * S) * res unit :=
  match fuel with
  | O => (x, OutOfFuel)
  | Datatypes.S f =>
      let g := c_gop (fst x) in
      if i <? g_len g then
        let idx := (base + i) mod g_len g in
        match slot (g_gops g) idx with
        | Ok (Some a) => pseq (live_array at_ wr idx (length a) 0 x) (live_gops at_ wr f base (i + 1))
        | _ => (x, Panic)
        end
      else (x, Ok tt)
  end.
(** gop.go:69-87 SendTo. *)
Definition live_gop_send {S} (at_ : S -> nat -> packet) (wr : live_writer S) (x : cache_of_type nat * S) : (cache_of_type nat * S) * res unit :=
  let g := c_gop (fst x) in
  if (g_cap g <=? 0) || (g_len g <=? 0) then (x, Ok tt)
  else live_gops at_ wr (Datatypes.S (Z.to_nat (g_cap g))) ((g_index g + 1) mod g_len g) 0 x.
(** frame.go:24-30 SendTo. *)
Definition live_frame {S} (at_ : S -> nat -> packet) (wr : live_writer S) (get : cache_of_type nat -> option nat) (x : cache_of_type nat * S) : (cache_of_type nat * S) * res unit :=
  match get (fst x) with None => (x, Ok tt) | Some k => live_call at_ wr k x end.
(** cache.go:77-103 SendTo. *)
Definition live_send {S} (at_ : S -> nat -> packet) (wr : live_writer S) (x : cache_of_type nat * S) : (cache_of_type nat * S) * res unit :=
  pseq (live_frame at_ wr c_meta x) (fun x =>
  pseq (live_frame at_ wr c_video x) (fun x =>
  pseq (live_frame at_ wr c_audio x) (live_gop_send at_ wr))).

(** A program: the calls of Model/GopPtr.v, and SendTo and Gop.SendTo with such writers. *)
Inductive live_op (S : Type) := LOp (o : gop_op S) | LSend (wr : live_writer S) | LGopSend (wr : live_writer S).
Arguments LOp {S}. Arguments LSend {S}. Arguments LGopSend {S}.
Definition live_step {S} (at_ : S -> nat -> packet) (x : cache_of_type nat * S) (o : live_op S) : (cache_of_type nat * S) * res unit :=
  match o with
  | LOp o => let '(c, (s, r)) := gop_step_ptr at_ (fst x) (snd x) o in ((c, s), r)
  | LSend wr => live_send at_ wr x
  | LGopSend wr => live_gop_send at_ wr x
  end.
Fixpoint live_run {S} (at_ : S -> nat -> packet) (x : cache_of_type nat * S) (os : list (live_op S)) : (cache_of_type nat * S) * list (res unit) :=
  match os with
  | [] => (x, [])
  | o :: os' => let '(x1, r) := live_step at_ x o in let '(x2, rs) := live_run at_ x1 os' in (x2, r :: rs)
  end.
