(** A live relay built from the library: a program over its API, with no code of /repo of its own. A publisher's packets go through
    demuxer.go Demux and, where that succeeds, cache.go Write; a viewer who joins is a FLV Mixer that cache.go SendTo sends to.
    Packets are pointers: all viewers are sent the same ones, and Mux assigns p.Data. The results of Write are ignored. *)
From Verif Require Import Base.Go Base.IO Model.Packet Model.Flv Model.Gop Model.GopPtr.

(** A program with packets and FLV mixers, each with its writer; mixer i as a subscriber is a packet.Writer (packet.go:60-62)
    that calls Mux (container/flv/mixer.go:45-47) with the packet's own time stamp. *)
Record flv_state := mkFS { fs_packets : nat -> packet; fs_mixers : nat -> mixer * writer }.
Definition upd {A} (f : nat -> A) (k : nat) (a : A) : nat -> A := fun j => if Nat.eqb j k then a else f j.
Definition flv_subscriber (i : nat) : pointer_writer flv_state := fun k s =>
  let '(x, w) := fs_mixers s i in
  let p := fs_packets s k in
  let '(x', p', (w', r)) := mixer_mux x p (p_ts p) w in
  (mkFS (upd (fs_packets s) k p') (upd (fs_mixers s) i (x', w')), r).

Inductive relay_event := Publish (p : packet) | View.
Definition published (es : list relay_event) : list packet := flat_map (fun e => match e with Publish p => [p] | View => [] end) es.
Definition viewers (es : list relay_event) : nat := length (filter (fun e => match e with View => true | _ => false end) es).
(** The calls for the events: packet k is at pointer k, viewer i has mixer i. *)
Fixpoint relay (k i : nat) (es : list relay_event) : list (gop_op flv_state) :=
  match es with
  | [] => []
  | Publish p :: es' =>
      let '(p', r) := demux p in
      GDo (fun s => mkFS (upd (fs_packets s) k p') (fs_mixers s)) :: match r with Ok _ => [GWrite k] | _ => [] end ++ relay (S k) i es'
  | View :: es' => GSend (flv_subscriber i) :: relay k (S i) es'
  end.
