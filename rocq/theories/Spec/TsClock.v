(** The times of a TS Mixer, computed from the calls made on it: a small clock driven by the history alone. *)
From Coq Require Import ZArith List.
From Verif Require Import Base.Go Base.IO Model.Packet Model.Parsers Model.Ts Spec.Parsers.
Import ListNotations.
Local Open Scope Z_scope.

(** The times the next frame is sent with; the audio time line (where it started and how many frames it has had); and
    the packets that were given to the Mixer so far. *)
Record clock := mkClock { k_pts : Z; k_dts : Z; k_start : Z; k_frames : Z; k_seen : list packet }.
Definition clock0 : clock := mkClock 0 0 0 0 [].
(** The sampling rate known from the packets seen: that of the AAC headers if there was an AAC packet, else that of the
    MP3 frames. *)
Definition seen_ops (l : list packet) : list (packet * writer) := map (fun p => (p, buffer0)) l.
Definition rate_known (l : list packet) : option Z :=
  match aac_ops (seen_ops l), mp3_ops (seen_ops l) with
  | [], [] => None
  | [], f => Some (mp3_rate_after f)
  | a, _ => Some (aac_rate_after a)
  end.
(** One call. Milliseconds become ticks of 90 kHz in 32 bits. A video Update sets both times. An audio Update follows
    the audio time line, 1024 samples a frame, while it is within 900 ticks (10 ms) of the time given, and starts a new
    one there otherwise. *)
Definition tick (k : clock) (o : mix_op) : clock :=
  match o with
  | XMux p | XSaveAVC p | XSaveAAC p => mkClock (k_pts k) (k_dts k) (k_start k) (k_frames k) (k_seen k ++ [p])
  | XUpdate p ms cts =>
      let t := (90 * ms) mod 2 ^ 32 in
      if p_type p =? 0 then mkClock (t + (90 * cts) mod 2 ^ 32) t (k_start k) (k_frames k) (k_seen k)
      else
        match (if p_type p =? 1 then rate_known (k_seen k) else None) with
        | Some r =>
            let due := k_start k + k_frames k * (1024 * 90000 / r) in
            if Z.abs (due - t) <=? 900 then mkClock due due (k_start k) (k_frames k + 1) (k_seen k)
            else mkClock t t t 1 (k_seen k)
        | None => mkClock (k_pts k) t (k_start k) (k_frames k) (k_seen k)
        end
  | XMeta _ | XHeader | XSetWriter _ => k
  end.
Definition clock_after (os : list mix_op) : clock := fold_left tick os clock0.
(** Every audio body is made of bytes. *)
Definition audio_bytes (os : list mix_op) : Prop :=
  Forall (fun o => match o with
                   | XMux p | XSaveAVC p | XSaveAAC p => match route_of p with RAac _ m | RMp3 m => is_bytes m | _ => True end
                   | _ => True
                   end) os.
