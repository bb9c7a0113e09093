(** A message whose headers are copied from a message that was read (C217). *)
From Coq Require Import String.
From Verif Require Import Base.Go Base.IO Base.Text Model.Sip Spec.Sip.
Import ListNotations. Local Open Scope list_scope. Local Open Scope Z_scope.

(** The same address: all fields but the text it was read from. *)
Definition same_user (a b : user) : Prop :=
  u_type a = u_type b /\ u_name a = u_name b /\ u_user a = u_user b /\ u_host a = u_host b /\ u_port a = u_port b /\ u_args a = u_args b.
Definition same_via (a b : via) : Prop :=
  v_trans a = v_trans b /\ v_host a = v_host b /\ v_port a = v_port b /\ v_args a = v_args b.
(** The value a name has in a message: the first one, as GetFirstHeader gives it. *)
Definition value_in (q : sip) (n : bytes) : bytes := get_first (s_headers q) n.
(** No space at either end. *)
Definition bare (v : bytes) : Prop := (forall t, v <> str " " ++ t) /\ (forall t, v <> t ++ str " ").
(** The lines of the message s fit a buffer of this size. *)
Definition room_for (size : Z) (s q : sip) (names : list bytes) (body : bytes) : Prop :=
  (forall t, first_line s = Ok t -> len t <= size) /\ len (str "content-length: " ++ itoa (len body)) + 2 <= size /\
  Forall (fun n => len (n ++ str ": " ++ value_in q n) + 2 <= size) names.
