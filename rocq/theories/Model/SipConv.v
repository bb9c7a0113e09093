(** Programs on several addresses ( *SIPUser and *SIPRequest ) that may have their argument map in common: ToRequest and ToUser
    copy the reference to the map, not the map. An address is known by the order in which it was made, a map likewise. Only
    addresses made by the functions of the package; a struct literal with a nil map is not among them. *)
From Coq Require Import String.
From Verif Require Import Base.Go Base.IO Base.Text Model.Sip.
Import ListNotations.

(** sips/user.go:17-27 and sips/request.go:26-33: what a pointer of either type points to. *)
Inductive address := AUser (u : user) | ARequest (r : request).
(** The four fields both types have; they are exported, so a program can assign them. *)
Inductive part := Scheme | UserPart | Host | Port.
Definition put_part (a : address) (p : part) (v : bytes) : address :=
  match a, p with
  | AUser u, Scheme => AUser (mkUser v (u_name u) (u_user u) (u_host u) (u_port u) (u_args u) (u_src u))
  | AUser u, UserPart => AUser (mkUser (u_type u) (u_name u) v (u_host u) (u_port u) (u_args u) (u_src u))
  | AUser u, Host => AUser (mkUser (u_type u) (u_name u) (u_user u) v (u_port u) (u_args u) (u_src u))
  | AUser u, Port => AUser (mkUser (u_type u) (u_name u) (u_user u) (u_host u) v (u_args u) (u_src u))
  | ARequest r, Scheme => ARequest (mkReq v (r_user r) (r_host r) (r_port r) (r_args r) (r_src r))
  | ARequest r, UserPart => ARequest (mkReq (r_type r) v (r_host r) (r_port r) (r_args r) (r_src r))
  | ARequest r, Host => ARequest (mkReq (r_type r) (r_user r) v (r_port r) (r_args r) (r_src r))
  | ARequest r, Port => ARequest (mkReq (r_type r) (r_user r) (r_host r) v (r_args r) (r_src r))
  end.
Definition args_of (a : address) : args := match a with AUser u => u_args u | ARequest r => r_args r end.
Definition put_args (a : address) (m : args) : address :=
  match a with
  | AUser u => AUser (mkUser (u_type u) (u_name u) (u_user u) (u_host u) (u_port u) m (u_src u))
  | ARequest r => ARequest (mkReq (r_type r) (r_user r) (r_host r) (r_port r) m (r_src r))
  end.

(** The memory: all argument maps, and of every address its fields and the number of its map (the args in the fields are not
    looked at). *)
Record memory := mkMem { maps : list args; addresses : list (address * nat) }.
(** What a program sees of address i. *)
Definition seen (h : memory) (i : nat) : option address :=
  match nth_error (addresses h) i with
  | Some (a, m) => Some (put_args a (nth m (maps h) new_args))
  | None => None
  end.
Fixpoint put_nth {A} (l : list A) (i : nat) (x : A) : list A :=
  match l, i with
  | [], _ => []
  | _ :: t, O => x :: t
  | y :: t, S i' => y :: put_nth t i' x
  end.

(** sips/user.go:44 NewSIPUser, sips/request.go:42 NewSIPRequest, sips/user.go:179 ToRequest and sips/request.go:139 ToUser, an
    assignment to one of the four fields, sips/header_args.go:105 Set and :94 Del on the Args of an address, and
    sips/user.go:135 and sips/request.go:108 Bytes. *)
Inductive addr_op :=
| ParseUser (t : bytes) | ParseRequest (t : bytes) | Convert (i : nat) | Assign (i : nat) (p : part) (v : bytes)
| SetArg (i : nat) (k v : bytes) | DelArg (i : nat) (k : bytes) | Write (i : nat).
(** sips/user.go:179-190 ToRequest, sips/request.go:139-150 ToUser. *)
Definition convert (a : address) : address := match a with AUser u => ARequest (user_to_request u) | ARequest r => AUser (request_to_user r) end.
(** sips/user.go:135-172, sips/request.go:108-132 Bytes: the text, and the update of Src. *)
Definition text (a : address) : bytes := match a with AUser u => user_bytes u | ARequest r => request_bytes r end.
Definition put_src (a : address) (s : bytes) : address :=
  match a with
  | AUser u => AUser (mkUser (u_type u) (u_name u) (u_user u) (u_host u) (u_port u) (u_args u) s)
  | ARequest r => ARequest (mkReq (r_type r) (r_user r) (r_host r) (r_port r) (r_args r) s)
  end.
(** A new address with a new map. *)
Definition add_new (h : memory) (a : address) : memory :=
  mkMem (maps h ++ [args_of a]) (addresses h ++ [(a, length (maps h))]).
(** An op on an address that was not made yet is a nil pointer dereference. *)
Definition addr_step (h : memory) (o : addr_op) : res memory :=
  match o with
  | ParseUser t => let* u := new_user t in Ok (add_new h (AUser u))
  | ParseRequest t => let* r := new_request t in Ok (add_new h (ARequest r))
  | Convert i =>
      (* the map NewSIPRequest("") or NewSIPUser("") makes is dropped at once and not represented *)
      match nth_error (addresses h) i with
      | Some (a, m) => Ok (mkMem (maps h) (addresses h ++ [(convert a, m)]))
      | None => Panic
      end
  | Assign i p v =>
      match nth_error (addresses h) i with
      | Some (a, m) => Ok (mkMem (maps h) (put_nth (addresses h) i (put_part a p v, m)))
      | None => Panic
      end
  | SetArg i k v =>
      match nth_error (addresses h) i with
      | Some (_, m) => Ok (mkMem (put_nth (maps h) m (args_set (nth m (maps h) new_args) k v)) (addresses h))
      | None => Panic
      end
  | DelArg i k =>
      match nth_error (addresses h) i with
      | Some (_, m) => Ok (mkMem (put_nth (maps h) m (args_del (nth m (maps h) new_args) k)) (addresses h))
      | None => Panic
      end
  | Write i =>
      match nth_error (addresses h) i, seen h i with
      | Some (a, m), Some s => Ok (mkMem (maps h) (put_nth (addresses h) i (put_src a (text s), m)))
      | _, _ => Panic
      end
  end.
Fixpoint addr_run (h : memory) (os : list addr_op) : res memory :=
  match os with [] => Ok h | o :: os' => let* h' := addr_step h o in addr_run h' os' end.
Definition no_memory : memory := mkMem [] [].
