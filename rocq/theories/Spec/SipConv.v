(** What a program that parses, converts and changes addresses can rely on, from its calls alone. *)
From Verif Require Import Base.Go Base.Text Model.Sip Model.SipConv.
Import ListNotations.
Local Open Scope nat_scope.

(** How many addresses the calls have made. *)
Fixpoint made (os : list addr_op) : nat :=
  match os with
  | [] => 0
  | (ParseUser _ | ParseRequest _ | Convert _) :: t => S (made t)
  | _ :: t => made t
  end.
(** Only addresses that exist are used, and only texts are parsed whose parsing does not panic. *)
Definition allowed (before : list addr_op) (o : addr_op) : Prop :=
  match o with
  | ParseUser t => exists u, new_user t = Ok u
  | ParseRequest t => exists r, new_request t = Ok r
  | Convert i | Assign i _ _ | SetArg i _ _ | DelArg i _ | Write i => i < made before
  end.
Inductive legal : list addr_op -> Prop :=
| legal_nil : legal []
| legal_snoc os o : legal os -> allowed os o -> legal (os ++ [o]).

(** Address i comes, by any number of conversions, from the parsed address r. *)
Inductive comes_from : list addr_op -> nat -> nat -> Prop :=
| CF_user os t : comes_from (os ++ [ParseUser t]) (made os) (made os)
| CF_request os t : comes_from (os ++ [ParseRequest t]) (made os) (made os)
| CF_convert os i r : comes_from os i r -> comes_from (os ++ [Convert i]) (made os) r
| CF_keep os o i r : comes_from os i r -> comes_from (os ++ [o]) i r.
Definition related (os : list addr_op) (i j : nat) : Prop := exists r, comes_from os i r /\ comes_from os j r.

(** The four fields of an address. *)
Definition part_of (a : address) (p : part) : bytes :=
  match a, p with
  | AUser u, Scheme => u_type u | AUser u, UserPart => u_user u | AUser u, Host => u_host u | AUser u, Port => u_port u
  | ARequest r, Scheme => r_type r | ARequest r, UserPart => r_user r | ARequest r, Host => r_host r | ARequest r, Port => r_port r
  end.
(** The address a call parses. *)
Inductive parses : addr_op -> address -> Prop :=
| P_user t u : new_user t = Ok u -> parses (ParseUser t) (AUser u)
| P_request t r : new_request t = Ok r -> parses (ParseRequest t) (ARequest r).

(** A field has the value last assigned to it; before that, what was parsed, or what the address it was made from had then. *)
Inductive last_part : list addr_op -> nat -> part -> bytes -> Prop :=
| LP_parsed os o a p : parses o a -> last_part (os ++ [o]) (made os) p (part_of a p)
| LP_converted os i p v : last_part os i p v -> last_part (os ++ [Convert i]) (made os) p v
| LP_assigned os i p v : i < made os -> last_part (os ++ [Assign i p v]) i p v
| LP_kept os o i p v : last_part os i p v -> (forall w, o <> Assign i p w) -> last_part (os ++ [o]) i p v.

(** The address and the key a Set or Del is about. *)
Definition touches (o : addr_op) (j : nat) (k : bytes) : Prop := (exists v, o = SetArg j k v) \/ o = DelArg j k.
(** A parameter has the value of the last Set on the address *or any related one*, none ([None]) if it was a Del; before that,
    what was parsed. *)
Inductive last_arg : list addr_op -> nat -> bytes -> option bytes -> Prop :=
| LA_parsed os o a k : parses o a -> last_arg (os ++ [o]) (made os) k (mget k (args_of a))
| LA_converted os i k v : last_arg os i k v -> last_arg (os ++ [Convert i]) (made os) k v
| LA_set os i j k v : related os i j -> last_arg (os ++ [SetArg j k v]) i k (Some v)
| LA_deleted os i j k : related os i j -> last_arg (os ++ [DelArg j k]) i k None
| LA_kept os o i k v : last_arg os i k v -> (forall j, related os i j -> ~ touches o j k) -> last_arg (os ++ [o]) i k v.
