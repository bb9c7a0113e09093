(** Messages made by MakeRequest and MakeResponse with a header map that a program has filled (C200). *)
From Coq Require Import String.
From Verif Require Import Base.Go Base.IO Base.Text Model.Sip Model.SipMaps Spec.Sip Spec.SipAddr Spec.SipMaps.
Import ListNotations. Local Open Scope Z_scope.

(** Names of graphic characters without colon, in any case. *)
Definition header_name (n : bytes) : Prop := n <> [] /\ Forall (fun c => graphic c /\ c <> 58) n.
(** A call that sets a header to a text that has no CR or LF, under such a name. *)
Definition on_a_line (o : map_op) : Prop :=
  match o with
  | New => True
  | Call _ f => header_name (fst (sets f)) /\ without [13; 10] (snd (sets f))
  | Copy _ _ names => Forall header_name names
  end.
(** A request or a response with a first line that can be read back. *)
Inductive made_with (h : header) (body : bytes) : sip -> Prop :=
| Made_request m r : 1 <= m <= 15 -> plain_request r -> made_with h body (make_request m (Some r) h body)
| Made_response c : - 9223372036854775808 <= c <= 9223372036854775807 -> made_with h body (make_response c h body).
(** The lines fit a buffer of this size. *)
Definition fits_in (size : Z) (s : sip) (os : list map_op) (i : nat) (body : bytes) : Prop :=
  2 <= size /\ (forall t, first_line s = Ok t -> len t <= size) /\ len (str "content-length: " ++ itoa (len body)) + 2 <= size /\
  forall n v, header_name n -> last_value os i n (Some v) -> len (n ++ str ": " ++ v) + 2 <= size.
(** The addresses that were last set are read (C154 says how, C84 when they are not). *)
Definition addresses_read (os : list map_op) (i : nat) : Prop :=
  (forall n v, In n [str "From"; str "To"; str "Contact"] -> last_value os i n (Some v) -> exists u, user_of (trim_sp v) u) /\
  (forall v, last_value os i (str "Via") (Some v) -> exists w, via_of (trim_sp v) w).
