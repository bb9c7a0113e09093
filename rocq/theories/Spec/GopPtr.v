(** What a GOP cache is to a program that holds packets by pointer: a list of the pointers written, each with the kind
    that the packet had when it was written. No ring, no slots. *)
From Verif Require Import Base.Go Model.Packet Model.Gop Model.GopPtr Spec.Gop.

Inductive kind := KMeta | KVideoSeq | KAudioSeq | KKey | KInter | KOther.
Definition kind_eqb (a b : kind) : bool :=
  match a, b with
  | KMeta, KMeta | KVideoSeq, KVideoSeq | KAudioSeq, KAudioSeq | KKey, KKey | KInter, KInter | KOther, KOther => true
  | _, _ => false
  end.
(** The kind of a packet for WriteVideo, WriteAudio and Write; [None]: the call panics. *)
Definition kind_video (p : packet) : option kind :=
  match p_header p with
  | Some (mkH (Some v) _) => Some (if v_seq v then KVideoSeq else if v_key v then KKey else if v_inter v then KInter else KOther)
  | _ => None
  end.
Definition kind_audio (p : packet) : option kind :=
  match p_header p with
  | Some (mkH _ (Some a)) => Some (if a_aac a && a_seq a then KAudioSeq else KOther)
  | _ => None
  end.
Definition kind_of (p : packet) : option kind :=
  if p_type p =? 0 then kind_video p else if p_type p =? 1 then kind_audio p else Some (if p_type p =? 2 then KMeta else KOther).

Definition history := list (kind * nat).
(** The pointer written last as kind x. *)
Definition last_of (x : kind) (h : history) : list nat := opt (option_map snd (latest (fun i => kind_eqb (fst i) x) h)).
(** The groups of pictures, oldest first. *)
Definition group (l : list (list nat)) (i : kind * nat) : list (list nat) :=
  match fst i with KKey => l ++ [[snd i]] | KInter => app_last l (snd i) | _ => l end.
Definition groups (h : history) : list (list nat) := fold_left group h [].
(** The pointers that SendTo hands over, in order, and those that Gop.SendTo does. *)
Definition group_replay (N : nat) (h : history) : list nat := concat (lastn N (groups h)).
Definition pointer_replay (N : nat) (h : history) : list nat :=
  last_of KMeta h ++ last_of KVideoSeq h ++ last_of KAudioSeq h ++ group_replay N h.
(** A cache with room for groups rejects an inter frame that has no group to join or one of more than 1024 packets. *)
Definition rejects (N : nat) (h : history) (x : kind) : bool :=
  match x, N with
  | KInter, S _ => match rev (groups h) with [] => true | g :: _ => 1024 <? len g end
  | _, _ => false
  end.
Definition record (N : nat) (h : history) (x : option kind) (k : nat) : history * res unit :=
  match x with
  | None => (h, Panic)
  | Some x => if rejects N h x then (h, Err EOther) else (h ++ [(x, k)], Ok tt)
  end.
(** Calling Write with each pointer in turn, up to the first call that does not return nil. *)
Fixpoint call_each {S} (wr : pointer_writer S) (ks : list nat) (s : S) : S * res unit :=
  match ks with
  | [] => (s, Ok tt)
  | k :: ks' => match wr k s with (s', Ok _) => call_each wr ks' s' | (s', r) => (s', r) end
  end.

Definition spec_step {S} (at_ : S -> nat -> packet) (N : nat) (h : history) (s : S) (o : gop_op S) : history * (S * res unit) :=
  let put x k := let '(h', r) := record N h x k in (h', (s, r)) in
  match o with
  | GWrite k => put (kind_of (at_ s k)) k
  | GWriteVideo k => put (kind_video (at_ s k)) k
  | GWriteAudio k => put (kind_audio (at_ s k)) k
  | GGopWrite k create => put (Some (if create then KKey else KInter)) k
  | GMetaWrite k => put (Some KMeta) k
  | GVideoSeqWrite k => put (Some KVideoSeq) k
  | GAudioSeqWrite k => put (Some KAudioSeq) k
  | GSend wr => (h, call_each wr (pointer_replay N h) s)
  | GGopSend wr => (h, call_each wr (group_replay N h) s)
  | GMetaSend wr => (h, call_each wr (last_of KMeta h) s)
  | GVideoSeqSend wr => (h, call_each wr (last_of KVideoSeq h) s)
  | GAudioSeqSend wr => (h, call_each wr (last_of KAudioSeq h) s)
  | GDo f => (h, (f s, Ok tt))
  end.
Fixpoint spec_run {S} (at_ : S -> nat -> packet) (N : nat) (h : history) (s : S) (os : list (gop_op S)) : history * (S * list (res unit)) :=
  match os with
  | [] => (h, (s, []))
  | o :: os' => let '(h1, (s1, r)) := spec_step at_ N h s o in
                let '(h2, (s2, rs)) := spec_run at_ N h1 s1 os' in (h2, (s2, r :: rs))
  end.
