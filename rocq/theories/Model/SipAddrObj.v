(** The address objects of sips as a program holds them: fields are assigned, Bytes writes Src, ToRequest and ToUser make one kind from the other. *)
From Verif Require Import Base.Go Base.IO Base.Text Model.Sip.
Import ListNotations. Local Open Scope list_scope. Local Open Scope Z_scope.

(** sips/user.go:169, the update of Src in Bytes. *)
Definition user_stored (s : user) : user := mkUser (u_type s) (u_name s) (u_user s) (u_host s) (u_port s) (u_args s) (user_bytes s).
(** sips/via.go:121, the update of Src in Bytes. *)
Definition via_stored (s : via) : via := mkVia (v_trans s) (v_host s) (v_port s) (v_args s) (via_bytes s).

(** A variable that holds a *SIPUser or a *SIPRequest. *)
Inductive addr := AUser (u : user) | AReq (r : request).
(** What a program does with it. An assignment to Name is for a SIPUser only. The object ToRequest or ToUser is called on is
    forgotten; it shares the map Args with the new one, so Args is assigned here and never changed in place. *)
Inductive addr_op := WriteAddr | ConvertAddr | AssignType (v : bytes) | AssignName (v : bytes) | AssignUser (v : bytes) | AssignHost (v : bytes) | AssignPort (v : bytes) | AssignArgs (v : args).
(** Assignments to the fields of sips/user.go:19-27 and sips/request.go:26-33; Bytes, sips/user.go:135-172 and sips/request.go:108-132;
    ToRequest, sips/user.go:179-190, and ToUser, sips/request.go:139-150. *)
Definition addr_step (a : addr) (o : addr_op) : addr :=
  match a with
  | AUser (mkUser t n u h p g s) =>
      match o with
      | WriteAddr => AUser (user_stored (mkUser t n u h p g s))
      | ConvertAddr => AReq (user_to_request (mkUser t n u h p g s))
      | AssignType v => AUser (mkUser v n u h p g s)
      | AssignName v => AUser (mkUser t v u h p g s)
      | AssignUser v => AUser (mkUser t n v h p g s)
      | AssignHost v => AUser (mkUser t n u v p g s)
      | AssignPort v => AUser (mkUser t n u h v g s)
      | AssignArgs v => AUser (mkUser t n u h p v s)
      end
  | AReq (mkReq t u h p g s) =>
      match o with
      | WriteAddr => AReq (request_stored (mkReq t u h p g s))
      | ConvertAddr => AUser (request_to_user (mkReq t u h p g s))
      | AssignType v => AReq (mkReq v u h p g s)
      | AssignName _ => AReq (mkReq t u h p g s)
      | AssignUser v => AReq (mkReq t v h p g s)
      | AssignHost v => AReq (mkReq t u v p g s)
      | AssignPort v => AReq (mkReq t u h v g s)
      | AssignArgs v => AReq (mkReq t u h p v s)
      end
  end.
(** What Bytes returns. *)
Definition addr_bytes (a : addr) : bytes := match a with AUser u => user_bytes u | AReq r => request_bytes r end.
