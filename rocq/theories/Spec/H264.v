(** What converting an H.264 stream packet by packet gives: a relation between the packets and the outputs. *)
From Verif Require Import Base.Go Base.IO Model.Packet Spec.Parsers.

(** One packet: [c] is inserted before the first IDR of a packet without parameter sets of its own, and changes to [c'].
    [out] is written; [ok] says whether the call succeeds. *)
Inductive converted (c : bytes) : bytes -> bool -> bytes -> bytes -> bool -> Prop :=
| H_header b sps pps ext : header_of sps pps ext b -> converted c b true (c ++ annexb [sps; pps] ++ ext) [] true
| H_no_header b : (forall sps pps ext, ~ header_of sps pps ext b) -> converted c b true c [] false
| H_stream b : starts_0001 b -> converted c b false c b true
| H_short b : len b < 4 -> converted c b false c [] false
| H_units nals out : nals <> [] -> Forall good_nal nals -> Forall (fun n => is_supported n = true) nals -> ~ starts_0001 (avcc nals) ->
    converts c nals out -> converted c (avcc nals) false c out true
| H_broken nals tail out : Forall good_nal nals -> Forall (fun n => is_supported n = true) nals -> bad_tail tail -> ~ starts_0001 (avcc nals ++ tail) ->
    4 <= len (avcc nals ++ tail) -> converts c nals out -> converted c (avcc nals ++ tail) false c out false.

(** A stream of packets, each with the flag that says whether it is a sequence header. *)
Inductive stream_converted : bytes -> list (bytes * bool) -> list (bytes * bool) -> Prop :=
| Sc_nil c : stream_converted c [] []
| Sc_cons c c' b seq out ok bs outs : converted c b seq c' out ok -> stream_converted c' bs outs ->
    stream_converted c ((b, seq) :: bs) ((out, ok) :: outs).
