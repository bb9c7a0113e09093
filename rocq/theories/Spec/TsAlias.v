(** Specification for the sharing of media bytes between packets and mixers: the same program over packets that
    each own a private copy of their bytes and mixers without caches. *)
From Verif Require Import Base.Go Base.IO Model.AmfTypes Model.Packet Model.Parsers Model.Ts Model.TsAlias.

Record pworld := mkPWd { pw_pkts : nat -> packet; pw_mixes : nat -> option (tsmix * writer) }.
Definition pworld0 : pworld := mkPWd (fun _ => zero_packet) (fun _ => None).
(** One call, on private copies. *)
Definition pstep (s : pworld) (o : aop) : pworld * res unit :=
  let on i (f : tsmix * writer -> pworld * res unit) := match pw_mixes s i with Some xw => f xw | None => (s, Panic) end in
  let put i x w := upd_nat (pw_mixes s) i (Some (x, w)) in
  match o with
  | ASet k p => (mkPWd (upd_nat (pw_pkts s) k p) (pw_mixes s), Ok tt)
  | ACopy k j => (mkPWd (upd_nat (pw_pkts s) k (pw_pkts s j)) (pw_mixes s), Ok tt)
  | ANewMix i w => (mkPWd (pw_pkts s) (put i new_tsmix w), Ok tt)
  | AMux i k => on i (fun '(x, w) => let '(x', p', (w', r)) := mix_mux x (pw_pkts s k) w in
      (mkPWd (upd_nat (pw_pkts s) k p') (put i x' w'), r))
  | ASaveAVC i k => on i (fun '(x, w) => let '(x', p', r) := mix_save_avc x (pw_pkts s k) in
      (mkPWd (upd_nat (pw_pkts s) k p') (put i x' w), r))
  | ASaveAAC i k => on i (fun '(x, w) => let '(x', p', r) := mix_save_aac x (pw_pkts s k) in
      (mkPWd (upd_nat (pw_pkts s) k p') (put i x' w), r))
  | AMeta i md => on i (fun '(x, w) => let '(x', r) := mix_save_metadata x md in (mkPWd (pw_pkts s) (put i x' w), r))
  | AHeader i => on i (fun '(x, w) => let '(x', (w', r)) := mix_set_header x w in (mkPWd (pw_pkts s) (put i x' w'), r))
  | AUpdate i k a b => on i (fun '(x, w) => let '(x', r) := mix_update x (pw_pkts s k) a b in (mkPWd (pw_pkts s) (put i x' w), r))
  | ASetWriter i w' => on i (fun '(x, w) => (mkPWd (pw_pkts s) (put i x w'), Ok tt))
  end.
Fixpoint prun (s : pworld) (os : list aop) : pworld * list (res unit) :=
  match os with
  | [] => (s, [])
  | o :: os' => let '(s1, r) := pstep s o in let '(s2, rs) := prun s1 os' in (s2, r :: rs)
  end.

(** A packet is handed to Mux, SaveAVCHeader or SaveAACHeader at most once between two assignments to it: [st]
    marks the packets handed over. *)
Fixpoint each_once (st : nat -> bool) (os : list aop) : Prop :=
  match os with
  | [] => True
  | ASet k _ :: os' => each_once (upd_nat st k false) os'
  | ACopy k j :: os' => each_once (upd_nat st k (st j)) os'
  | (AMux _ k | ASaveAVC _ k | ASaveAAC _ k) :: os' => st k = false /\ each_once (upd_nat st k true) os'
  | _ :: os' => each_once st os'
  end.
