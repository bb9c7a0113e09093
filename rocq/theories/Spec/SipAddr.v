(** Request URIs, name-addr values and Via values: what the fields of an address are, for every text (C154). *)
From Coq Require Import String.
From Verif Require Import Base.Go Base.IO Base.Text Model.Sip Spec.Sip.
Import ListNotations. Local Open Scope list_scope. Local Open Scope Z_scope.

(** The text up to the first semicolon, and the rest (empty, or the semicolon and what follows). *)
Definition before_params (text front params : bytes) : Prop :=
  text = front ++ params /\ without (str ";") front /\ (params = [] \/ exists t, params = str ";" ++ t).
(** A scheme and its colon at the start; at the first place where there is one; nowhere. *)
Definition at_scheme (s ty rest : bytes) : Prop := scheme ty /\ s = ty ++ str ":" ++ rest.
Inductive first_scheme : bytes -> bytes -> bytes -> Prop :=
| FS_here s ty rest : at_scheme s ty rest -> first_scheme s ty rest
| FS_later c s ty rest : (forall ty' rest', ~ at_scheme (c :: s) ty' rest') -> first_scheme s ty rest -> first_scheme (c :: s) ty rest.
Definition no_scheme (s : bytes) : Prop := forall a ty rest, scheme ty -> s <> a ++ ty ++ str ":" ++ rest.
(** user, user@host or user@host:port: up to the first at sign, up to the first colon after it. *)
Definition located (t user host port : bytes) : Prop :=
  without (str "@") user /\
  (t = user /\ host = [] /\ port = [] \/
   t = user ++ str "@" ++ host /\ without (str ":") host /\ port = [] \/
   t = user ++ str "@" ++ host ++ str ":" ++ port /\ without (str ":") host).
(** The fields of a text: those after its first scheme; none, and the type given, if there is no scheme. *)
Definition uri_fields (s dflt ty user host port : bytes) : Prop :=
  no_scheme s /\ ty = dflt /\ user = [] /\ host = [] /\ port = [] \/
  exists t, first_scheme s ty t /\ located t user host port.
(** The parameters: what follows the first semicolon. *)
Definition params_of (params : bytes) (a : res args) : Prop :=
  params = [] /\ a = Ok [] \/ exists t, params = str ";" ++ t /\ a = parse_args_pairs t.

Definition request_of (uri : bytes) (r : request) : Prop :=
  exists front params, before_params uri front params /\ params_of params (Ok (r_args r)) /\ r_src r = uri /\
    uri_fields front (str "sip") (r_type r) (r_user r) (r_host r) (r_port r).

(** The words of a text: it is divided at spaces and closing angle brackets. *)
Fixpoint words (s : bytes) : list bytes :=
  match s with
  | [] => [[]]
  | c :: t => if (c =? 32) || (c =? 62) then [] :: words t
              else match words t with w :: ws => (c :: w) :: ws | [] => [[c]] end
  end.
(** Word by word; the type is that of the last word with a scheme, the others are strung together. *)
Inductive words_fields : bytes -> list bytes -> bytes -> bytes -> bytes -> bytes -> Prop :=
| WF_nil dflt : words_fields dflt [] dflt [] [] []
| WF_cons dflt w ws ty u h p ty' u' h' p' : uri_fields w dflt ty u h p -> words_fields ty ws ty' u' h' p' ->
    words_fields dflt (w :: ws) ty' (u ++ u') (h ++ h') (p ++ p').
Definition user_of (text : bytes) (r : user) : Prop :=
  exists front params, before_params text front params /\ params_of params (Ok (u_args r)) /\ u_src r = text /\ u_name r = [] /\
    words_fields (str "sip") (words front) (u_type r) (u_user r) (u_host r) (u_port r).

(** Via: what follows the first SIP/2.0/ that does not come after a semicolon. The transport, if it is one of the four;
    any other character at its place is skipped, whatever it is. *)
Inductive first_protocol : bytes -> bytes -> Prop :=
| FP_here rest : first_protocol (str "SIP/2.0/" ++ rest) rest
| FP_later c s rest : (forall rest', c :: s <> str "SIP/2.0/" ++ rest') -> c <> 59 -> first_protocol s rest -> first_protocol (c :: s) rest.
Definition no_protocol (s : bytes) : Prop := forall a rest, s <> a ++ str "SIP/2.0/" ++ rest.
Definition transport_of (t trans rest : bytes) : Prop :=
  transport trans /\ t = trans ++ rest \/
  trans = [] /\ (forall tr r, transport tr -> t <> tr ++ r) /\ (t = [] /\ rest = [] \/ exists c, t = c :: rest).
(** host or host:port, without its spaces. *)
Definition unspaced (s : bytes) : bytes := filter (fun c => negb (c =? 32)) s.
Definition sent_by (s host port : bytes) : Prop :=
  without (str ":") host /\ (unspaced s = host /\ port = [] \/ unspaced s = host ++ str ":" ++ port).
Definition via_split (text trans host port params : bytes) : Prop :=
  (exists front, before_params text front params /\ no_protocol front /\ trans = [] /\ host = [] /\ port = []) \/
  (exists t rest front, first_protocol text t /\ transport_of t trans rest /\ before_params rest front params /\ sent_by front host port).
Definition via_of (text : bytes) (v : via) : Prop :=
  v_src v = text /\ exists params, via_split text (v_trans v) (v_host v) (v_port v) params /\ params_of params (Ok (v_args v)).
