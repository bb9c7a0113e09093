(** What a GOP cache should replay, as a function of the history of packets; independent of the ring buffer. *)
From Verif Require Import Base.Go Model.Packet.

(** The last n elements of a list (all of it if shorter). *)
Definition lastn {A} (n : nat) (l : list A) : list A := skipn (length l - n) l.
(** The most recent element satisfying f. *)
Definition latest {A} (f : A -> bool) (l : list A) : option A := find f (rev l).
Definition opt {A} (o : option A) : list A := match o with Some a => [a] | None => [] end.

(** Kinds of packets. *)
Definition is_meta (p : packet) : bool := p_type p =? 2.
Definition is_video_seq (p : packet) : bool :=
  (p_type p =? 0) && match p_header p with Some (mkH (Some v) _) => v_seq v | _ => false end.
Definition is_aac_seq (p : packet) : bool :=
  (p_type p =? 1) && match p_header p with Some (mkH _ (Some a)) => a_aac a && a_seq a | _ => false end.
(** Key and inter frames other than sequence headers. *)
Definition is_key (p : packet) : bool :=
  (p_type p =? 0) && match p_header p with Some (mkH (Some v) _) => negb (v_seq v) && v_key v | _ => false end.
Definition is_inter (p : packet) : bool :=
  (p_type p =? 0) && match p_header p with Some (mkH (Some v) _) => negb (v_seq v) && negb (v_key v) && v_inter v | _ => false end.

(** The groups of pictures of a history: each key frame opens one, each inter frame joins the last one. *)
Fixpoint app_last {A} (l : list (list A)) (x : A) : list (list A) :=
  match l with
  | [] => []
  | [g] => [g ++ [x]]
  | g :: l' => g :: app_last l' x
  end.
Definition gop_step (l : list (list packet)) (p : packet) : list (list packet) :=
  if is_key p then l ++ [[p]] else if is_inter p then app_last l p else l.
Definition gops_of (h : list packet) : list (list packet) := fold_left gop_step h [].

(** A well-formed group of pictures: a key frame followed by inter frames. *)
Definition good_gop (g : list packet) : Prop := exists k is, g = k :: is /\ is_key k = true /\ Forall (fun p => is_inter p = true) is.

(** The replay of a cache for N GOPs after history h. *)
Definition replay (N : nat) (h : list packet) : list packet :=
  opt (latest is_meta h) ++ opt (latest is_video_seq h) ++ opt (latest is_aac_seq h) ++ concat (lastn N (gops_of h)).

(** The same for things [A] that stand for packets: [v] gives the packet. *)
Definition gop_step_at {A} (v : A -> packet) (l : list (list A)) (p : A) : list (list A) :=
  if is_key (v p) then l ++ [[p]] else if is_inter (v p) then app_last l p else l.
Definition gops_at {A} (v : A -> packet) (h : list A) : list (list A) := fold_left (gop_step_at v) h [].
Definition replay_at {A} (v : A -> packet) (N : nat) (h : list A) : list A :=
  opt (latest (fun a => is_meta (v a)) h) ++ opt (latest (fun a => is_video_seq (v a)) h) ++
  opt (latest (fun a => is_aac_seq (v a)) h) ++ concat (lastn N (gops_at v h)).

(** The packets of a history whose write was accepted (returned nil). *)
Fixpoint accepted (h : list packet) (rs : list (res unit)) : list packet :=
  match h, rs with
  | p :: h', Ok _ :: rs' => p :: accepted h' rs'
  | _ :: h', _ :: rs' => accepted h' rs'
  | _, _ => []
  end.

(** A writer none of whose calls fails. *)
Definition healthy (w : pwriter) : Prop := forall n, pw_fails w n = false.
