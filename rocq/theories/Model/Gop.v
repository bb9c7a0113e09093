(** Model of package gop: array.go, frame.go, gop.go, cache.go.
    Packets are Go pointers; the cache stores them, reads their contents only in Cache.Write and hands the same
    pointers to the writer. The definitions are for pointers of any type [A]; where the code reads the packet, a
    parameter [v : A -> packet] gives its contents at that moment. A writer is any function from the pointer and
    the state [S] of the rest of the program to the next state and the result of Write. The instances without
    suffix take a packet that nobody mutates for the pointer, and the writers of Model/Packet.v; Model/GopPtr.v
    has the pointers of a program that mutates its packets. Simplified: the writer calls no method of the cache
    it is being served from (Model/GopLive.v has writers that do). *)
From Verif Require Import Base.Go Model.Packet.

(** array.go:10. *)
Definition maxGop : Z := 1024.

(** array.go:27-35 write: the array after the call. The error case leaves it unchanged. *)
Definition array_write {A} (a : list A) (p : A) : list A * res unit :=
  if maxGop <? len a then (a, Err EOther) else (a ++ [p], Ok tt).

(** array.go:38-50 sendTo. *)
Fixpoint array_send {A S} (wr : A -> S -> S * res unit) (a : list A) (w : S) : S * res unit :=
  match a with
  | [] => (w, Ok tt)
  | p :: a' => match wr p w with
               | (w', Ok _) => array_send wr a' w'
               | (w', Err e) => (w', Err e)
               | (w', Panic) => (w', Panic)
               | (w', OutOfFuel) => (w', OutOfFuel)
               end
  end.

(** frame.go:24-30 SendTo; frame.go:19-21 Write replaces the slot. *)
Definition frame_send {A S} (wr : A -> S -> S * res unit) (f : option A) (w : S) : S * res unit :=
  match f with None => (w, Ok tt) | Some p => wr p w end.

(** gop.go:10-15 gopCache. [None] is a nil *array. *)
Record gops_of_type (A : Type) := mkG { g_len : Z; g_cap : Z; g_index : Z; g_gops : list (option (list A)) }.
Arguments mkG {A}. Arguments g_len {A}. Arguments g_cap {A}. Arguments g_index {A}. Arguments g_gops {A}.
Definition gops := gops_of_type packet.

(** gop.go:19-26 newGopCache. make panics for a negative size. *)
Definition new_gops {A} (n : Z) : res (gops_of_type A) :=
  if n <? 0 then Panic else Ok (mkG 0 n (-1) (repeat None (Z.to_nat n))).

(** g.gops[i] and g.gops[i] = x; the index is in range in all reachable states (proved), else a panic. *)
Definition slot {A} (l : list (option (list A))) (i : Z) : res (option (list A)) :=
  if (0 <=? i) && (i <? len l) then Ok (nth (Z.to_nat i) l None) else Panic.
Definition set_slot {A} (l : list (option (list A))) (i : Z) (a : list A) :=
  firstn (Z.to_nat i) l ++ Some a :: skipn (S (Z.to_nat i)) l.

(** gop.go:29-66 Write. Go's % on non-negative operands is Z.modulo. *)
Definition gop_write {A} (g : gops_of_type A) (p : A) (create : bool) : gops_of_type A * res unit :=
  if (g_cap g <=? 0) || (len (g_gops g) <=? 0) then (g, Ok tt)
  else if create then
    let i := (g_index g + 1) mod g_cap g in
    match slot (g_gops g) i with
    | Ok None =>
        let '(a, r) := array_write [] p in
        (mkG (g_len g + 1) (g_cap g) i (set_slot (g_gops g) i a), r)
    | Ok (Some _) =>
        (* reset() keeps the array, truncated to length 0 *)
        let '(a, r) := array_write [] p in
        (mkG (g_len g) (g_cap g) i (set_slot (g_gops g) i a), r)
    | _ => (mkG (g_len g) (g_cap g) i (g_gops g), Panic)
    end
  else if g_index g <? 0 then (g, Err EOther)
  else match slot (g_gops g) (g_index g) with
       | Ok None => (g, Err EOther)
       | Ok (Some a) =>
           let '(a', r) := array_write a p in
           (mkG (g_len g) (g_cap g) (g_index g) (set_slot (g_gops g) (g_index g) a'), r)
       | _ => (g, Panic)
       end.

(** gop.go:76-84, the loop of SendTo, from counter i. A nil array in a used slot would panic
    (a.packets on a nil *array). *)
Fixpoint gop_send_loop {A S} (wr : A -> S -> S * res unit) (n : nat) (base i : Z) (g : gops_of_type A) (w : S) : S * res unit :=
  match n with
  | O => (w, Ok tt)
  | Datatypes.S n' =>
      match slot (g_gops g) ((base + i) mod g_len g) with
      | Ok (Some a) =>
          match array_send wr a w with
          | (w', Ok _) => gop_send_loop wr n' base (i + 1) g w'
          | (w', Err e) => (w', Err e)
          | (w', Panic) => (w', Panic)
          | (w', OutOfFuel) => (w', OutOfFuel)
          end
      | _ => (w, Panic)
      end
  end.
(** gop.go:69-87 SendTo. *)
Definition gop_send {A S} (wr : A -> S -> S * res unit) (g : gops_of_type A) (w : S) : S * res unit :=
  if (g_cap g <=? 0) || (g_len g <=? 0) then (w, Ok tt)
  else gop_send_loop wr (Z.to_nat (g_len g)) ((g_index g + 1) mod g_len g) 0 g w.

(** cache.go:8-13 Cache. *)
Record cache_of_type (A : Type) := mkC { c_gop : gops_of_type A; c_video : option A; c_audio : option A; c_meta : option A }.
Arguments mkC {A}. Arguments c_gop {A}. Arguments c_video {A}. Arguments c_audio {A}. Arguments c_meta {A}.
Definition cache := cache_of_type packet.
(** cache.go:16-23 NewCache. *)
Definition new_cache_of {A} (n : Z) : res (cache_of_type A) :=
  match new_gops n with
  | Ok g => Ok (mkC g None None None)
  | Err e => Err e
  | Panic => Panic
  | OutOfFuel => OutOfFuel
  end.

(** cache.go:26-40 WriteVideo. *)
Definition cache_write_video {A} (v : A -> packet) (c : cache_of_type A) (p : A) : cache_of_type A * res unit :=
  match video_of (v p) with
  | None => (c, Panic)
  | Some vh =>
      if v_seq vh then (mkC (c_gop c) (Some p) (c_audio c) (c_meta c), Ok tt)
      else if v_key vh || v_inter vh then
        let '(g, r) := gop_write (c_gop c) p (v_key vh) in (mkC g (c_video c) (c_audio c) (c_meta c), r)
      else (c, Ok tt)
  end.
(** cache.go:43-53 WriteAudio. *)
Definition cache_write_audio {A} (v : A -> packet) (c : cache_of_type A) (p : A) : cache_of_type A * res unit :=
  match audio_of (v p) with
  | None => (c, Panic)
  | Some ah => if a_aac ah && a_seq ah then (mkC (c_gop c) (c_video c) (Some p) (c_meta c), Ok tt) else (c, Ok tt)
  end.
(** cache.go:56-74 Write. *)
Definition cache_write_at {A} (v : A -> packet) (c : cache_of_type A) (p : A) : cache_of_type A * res unit :=
  if p_type (v p) =? PktVideo then cache_write_video v c p
  else if p_type (v p) =? PktAudio then cache_write_audio v c p
  else if p_type (v p) =? PktMetadata then (mkC (c_gop c) (c_video c) (c_audio c) (Some p), Ok tt)
  else (c, Ok tt).

(** cache.go:77-103 SendTo. *)
Definition pseq {S} (r : S * res unit) (k : S -> S * res unit) : S * res unit :=
  match r with (w, Ok _) => k w | other => other end.
Definition cache_send_to {A S} (wr : A -> S -> S * res unit) (c : cache_of_type A) (w : S) : S * res unit :=
  pseq (frame_send wr (c_meta c) w) (fun w =>
  pseq (frame_send wr (c_video c) w) (fun w =>
  pseq (frame_send wr (c_audio c) w) (fun w =>
  gop_send wr (c_gop c) w))).

(** * Packets that nobody mutates, and the writers of Model/Packet.v *)
Definition new_cache (n : Z) : res cache := new_cache_of n.
Definition cache_write (c : cache) (p : packet) : cache * res unit := cache_write_at (fun p => p) c p.
Definition cache_send (c : cache) (w : pwriter) : pwriter * res unit := cache_send_to pwrite c w.

(** A history of Write calls: the cache after it and the results. *)
Fixpoint cache_run (c : cache) (ps : list packet) : cache * list (res unit) :=
  match ps with
  | [] => (c, [])
  | p :: ps' => let '(c1, r) := cache_write c p in let '(c2, rs) := cache_run c1 ps' in (c2, r :: rs)
  end.
