(** What a program on several SIP header maps leaves under every name: the last value it set. *)
From Coq Require Import String.
From Verif Require Import Base.Go Base.IO Base.Text Model.Sip Model.SipMaps.
Import ListNotations.
Local Open Scope nat_scope.

(** Names are the same if they are in lower case. *)
Definition same_name (a b : bytes) : Prop := to_lower a = to_lower b.
(** The header a setter sets, and to what. *)
Definition sets (f : setter) : bytes * bytes :=
  match f with
  | SetFirstHeader name v => (name, v)
  | SetContentLength n => (str "Content-Length", itoa n)
  | SetCallID v => (str "Call-ID", v)
  | SetMaxForwards n => (str "Max-Forwards", itoa n)
  | SetReasonPhrase v => (str "Reason-Phrase", v)
  | SetSupported v => (str "Supported", v)
  | SetSubject v => (str "Subject", v)
  | SetContentType v => (str "Content-Type", v)
  | SetAllow v => (str "Allow", v)
  | SetSIPFrom u => (str "From", user_bytes u)
  | SetSIPTo u => (str "To", user_bytes u)
  | SetSIPContact u => (str "Contact", user_bytes u)
  | SetSIPCseq q => (str "CSeq", cseq_bytes q)
  | SetSIPVia v => (str "Via", via_bytes v)
  end.
(** The number of maps a program has made. *)
Fixpoint made (os : list map_op) : nat := match os with [] => 0 | New :: os' => S (made os') | _ :: os' => made os' end.
(** Programs use only maps they have made. *)
Definition uses (o : map_op) (n : nat) : Prop := match o with New => True | Call i _ => i < n | Copy i j _ => i < n /\ j < n end.
Inductive legal : list map_op -> Prop :=
| L_none : legal []
| L_next os o : legal os -> uses o (made os) -> legal (os ++ [o]).

Definition text_of (o : option bytes) : bytes := match o with Some v => v | None => [] end.
(** [last_value os i n o]: what the program os last set header n of map i to, if it did. A copied header has the value its source had
    then, the empty text if none. *)
Inductive last_value : list map_op -> nat -> bytes -> option bytes -> Prop :=
| V_none i n : last_value [] i n None
| V_new os i n o : last_value os i n o -> last_value (os ++ [New]) i n o
| V_set os i f n : same_name n (fst (sets f)) -> last_value (os ++ [Call i f]) i n (Some (snd (sets f)))
| V_other os i f k n o : k <> i \/ ~ same_name n (fst (sets f)) -> last_value os k n o -> last_value (os ++ [Call i f]) k n o
| V_copied os i j names n o : Exists (same_name n) names -> last_value os j n o -> last_value (os ++ [Copy i j names]) i n (Some (text_of o))
| V_not_copied os i j names k n o : k <> i \/ ~ Exists (same_name n) names -> last_value os k n o -> last_value (os ++ [Copy i j names]) k n o.
