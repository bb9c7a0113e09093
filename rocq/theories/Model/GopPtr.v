(** A program that holds packets in variables and a gop.Cache of pointers to them: all methods of cache.go, and those
    of the Gop, VideoSeqHdr, AudioSeqHdr and Metadata fields, which are exported too. [S] is the state of the rest of
    the program, [at_ s k] the contents of the packet that pointer [k] points to. Simplified: no nil pointers. *)
From Verif Require Import Base.Go Model.Packet Model.Gop.

(** A packet.Writer (packet.go:60-62): Write may do anything to the rest of the program, the packets included. *)
Definition pointer_writer (S : Type) := nat -> S -> S * res unit.

Inductive gop_op (S : Type) :=
| GWrite (k : nat)                        (* Cache.Write *)
| GWriteVideo (k : nat)                   (* Cache.WriteVideo *)
| GWriteAudio (k : nat)                   (* Cache.WriteAudio *)
| GGopWrite (k : nat) (create : bool)     (* Cache.Gop.Write *)
| GMetaWrite (k : nat)                    (* Cache.Metadata.Write *)
| GVideoSeqWrite (k : nat)                (* Cache.VideoSeqHdr.Write *)
| GAudioSeqWrite (k : nat)                (* Cache.AudioSeqHdr.Write *)
| GSend (wr : pointer_writer S)           (* Cache.SendTo *)
| GGopSend (wr : pointer_writer S)        (* Cache.Gop.SendTo *)
| GMetaSend (wr : pointer_writer S)       (* Cache.Metadata.SendTo *)
| GVideoSeqSend (wr : pointer_writer S)   (* Cache.VideoSeqHdr.SendTo *)
| GAudioSeqSend (wr : pointer_writer S)   (* Cache.AudioSeqHdr.SendTo *)
| GDo (f : S -> S).                       (* anything else the program does *)
Arguments GWrite {S}. Arguments GWriteVideo {S}. Arguments GWriteAudio {S}. Arguments GGopWrite {S}. Arguments GMetaWrite {S}.
Arguments GVideoSeqWrite {S}. Arguments GAudioSeqWrite {S}. Arguments GSend {S}. Arguments GGopSend {S}. Arguments GMetaSend {S}.
Arguments GVideoSeqSend {S}. Arguments GAudioSeqSend {S}. Arguments GDo {S}.

(** cache.go:26-103, gop.go:29-87, frame.go:19-30. *)
Definition gop_step_ptr {S} (at_ : S -> nat -> packet) (c : cache_of_type nat) (s : S) (o : gop_op S) : cache_of_type nat * (S * res unit) :=
  let kept (x : cache_of_type nat * res unit) := (fst x, (s, snd x)) in
  match o with
  | GWrite k => kept (cache_write_at (at_ s) c k)
  | GWriteVideo k => kept (cache_write_video (at_ s) c k)
  | GWriteAudio k => kept (cache_write_audio (at_ s) c k)
  | GGopWrite k create => let '(g, r) := gop_write (c_gop c) k create in (mkC g (c_video c) (c_audio c) (c_meta c), (s, r))
  | GMetaWrite k => (mkC (c_gop c) (c_video c) (c_audio c) (Some k), (s, Ok tt))
  | GVideoSeqWrite k => (mkC (c_gop c) (Some k) (c_audio c) (c_meta c), (s, Ok tt))
  | GAudioSeqWrite k => (mkC (c_gop c) (c_video c) (Some k) (c_meta c), (s, Ok tt))
  | GSend wr => (c, cache_send_to wr c s)
  | GGopSend wr => (c, gop_send wr (c_gop c) s)
  | GMetaSend wr => (c, frame_send wr (c_meta c) s)
  | GVideoSeqSend wr => (c, frame_send wr (c_video c) s)
  | GAudioSeqSend wr => (c, frame_send wr (c_audio c) s)
  | GDo f => (c, (f s, Ok tt))
  end.
(** A history of calls: the cache, the rest of the program and the results. *)
Fixpoint gop_run_ptr {S} (at_ : S -> nat -> packet) (c : cache_of_type nat) (s : S) (os : list (gop_op S)) : cache_of_type nat * (S * list (res unit)) :=
  match os with
  | [] => (c, (s, []))
  | o :: os' => let '(c1, (s1, r)) := gop_step_ptr at_ c s o in
                let '(c2, (s2, rs)) := gop_run_ptr at_ c1 s1 os' in (c2, (s2, r :: rs))
  end.
