(** Histories of calls on SIP messages that share maps, requests and bodies (C138, C139). *)
From Coq Require Import String Permutation.
From Verif Require Import Base.Go Base.GoFacts Base.IO Base.Text Model.Sip Model.SipShare.
Import ListNotations. Local Open Scope list_scope. Local Open Scope Z_scope.

(** Calls that name only cells and messages that exist. *)
Definition has {A} (l : list A) (c : option nat) : Prop := match c with Some n => (n < length l)%nat | None => True end.
Definition legal_op (o : op) (p : pool) : Prop :=
  match o with
  | NewHeader | NewReq _ | NewBody _ => True
  | SetFirst h _ _ => has (p_heads p) (Some h)
  | SetReq r _ => has (p_reqs p) (Some r)
  | WriteBody b _ => has (p_bodies p) (Some b)
  | MakeReq _ r h b => has (p_reqs p) r /\ has (p_heads p) h /\ has (p_bodies p) b
  | MakeResp _ h b => has (p_heads p) h /\ has (p_bodies p) b
  | PutHeader i h => has (p_msgs p) (Some i) /\ has (p_heads p) h
  | PutBody i b => has (p_msgs p) (Some i) /\ has (p_bodies p) b
  | ToBytes _ i => has (p_msgs p) (Some i)
  end.
Fixpoint legal (os : list op) (p : pool) : Prop :=
  match os with [] => True | o :: os' => legal_op o p /\ legal os' (fst (step o p)) end.
(** Calls other than those by which a caller changes message i, its map, its request or its body; g has their cells. *)
Definition leaves (i : nat) (g : msg) (o : op) : Prop :=
  match o with
  | SetFirst h _ _ => Some h <> g_head g
  | SetReq r _ => Some r <> g_req g
  | WriteBody b _ => Some b <> g_body g
  | PutHeader j _ | PutBody j _ => j <> i
  | _ => True
  end.
(** What Bytes of message i returns. *)
Definition text (order : hmap -> hmap) (i : nat) (p : pool) : option (res bytes) := snd (step (ToBytes order i) p).
(** The body in a cell; the text of a message that has everything to itself. *)
Definition body_of (p : pool) (b : option nat) : bytes := match cell (p_bodies p) b with Some x => x | None => [] end.
Definition own_text (order : hmap -> hmap) (s : sip) : option (res bytes) := Some (let* st := sip_bytes order s in Ok (snd st)).
