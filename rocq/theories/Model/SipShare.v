(** SIP messages that share the header map, the request and the body they were made from. In sips, a SIPHeader is a Go map, a
    request a pointer and a body a slice: MakeRequest, MakeResponse, SetHeader and SetBody keep what they are given, and
    serializing a message writes to its map and to its request. Here the caller's maps, requests and bodies are cells of a
    pool, and a message holds the numbers of its cells. *)
From Coq Require Import String.
From Verif Require Import Base.Go Base.IO Base.Text Model.Sip.
Import ListNotations. Local Open Scope list_scope. Local Open Scope Z_scope.

(** sips/sips.go:20-45 SIP. [g_own] has the fields that are not shared; its s_headers, s_request and s_payload are not used. *)
Record msg := mkMsg { g_own : sip; g_head : option nat; g_req : option nat; g_body : option nat }.
Record pool := mkPool { p_heads : list hmap; p_reqs : list request; p_bodies : list bytes; p_msgs : list msg }.
Definition no_pool : pool := mkPool [] [] [] [].

Definition cell {A} (l : list A) (c : option nat) : option A := match c with Some n => nth_error l n | None => None end.
Fixpoint store {A} (n : nat) (x : A) (l : list A) : list A :=
  match l, n with
  | [], _ => []
  | _ :: l', O => x :: l'
  | y :: l', S n' => y :: store n' x l'
  end.
Definition store_at {A} (c : option nat) (x : option A) (l : list A) : list A :=
  match c, x with Some n, Some v => store n v l | _, _ => l end.
(** What the message is at this moment. *)
Definition view (p : pool) (g : msg) : sip :=
  set_body (match cell (p_bodies p) (g_body g) with Some b => b | None => [] end)
    (with_headers (cell (p_heads p) (g_head g)) (with_request (s_method (g_own g)) (cell (p_reqs p) (g_req g)) (g_own g))).

(** What a caller can do. Cells, and messages, are numbered in order of creation. *)
Inductive op :=
| NewHeader                                            (* header.go:38-40 NewSIPHeader *)
| NewReq (r : request)                                 (* &SIPRequest{...} *)
| NewBody (b : bytes)                                  (* a []byte *)
| SetFirst (h : nat) (name v : bytes)                  (* header.go:79-82 SetFirstHeader *)
| SetReq (r : nat) (x : request)                       (* *r = x *)
| WriteBody (b : nat) (x : bytes)                      (* copy(b, x) *)
| MakeReq (m : Z) (r h b : option nat)                 (* easy.go:4-20 MakeRequest; None is nil *)
| MakeResp (code : Z) (h b : option nat)               (* easy.go:23-39 MakeResponse *)
| PutHeader (g : nat) (h : option nat)                 (* sips.go:267-269 SetHeader *)
| PutBody (g : nat) (b : option nat)                   (* sips.go:272-274 SetBody *)
| ToBytes (order : hmap -> hmap) (g : nat).            (* sips.go:222-264 Bytes *)

(** easy.go:11-16, 31-36: an empty map is not kept, the message then has the map NewSIP made (sips.go:50); an empty body is not
    kept. *)
Definition make (own : sip) (r h b : option nat) (p : pool) : pool :=
  let body := match cell (p_bodies p) b with Some (_ :: _) => b | _ => None end in
  match cell (p_heads p) h with
  | Some (_ :: _) => mkPool (p_heads p) (p_reqs p) (p_bodies p) (p_msgs p ++ [mkMsg own h r body])
  | _ => mkPool (p_heads p ++ [[]]) (p_reqs p) (p_bodies p) (p_msgs p ++ [mkMsg own (Some (length (p_heads p))) r body])
  end.
(** sips.go:222-264 Bytes on the message's view; the map and the request it wrote are stored in their cells. *)
Definition to_bytes (order : hmap -> hmap) (i : nat) (p : pool) : pool * option (res bytes) :=
  match nth_error (p_msgs p) i with
  | None => (p, None)
  | Some g =>
      match sip_bytes order (view p g) with
      | Ok (s, text) => (mkPool (store_at (g_head g) (s_headers s) (p_heads p)) (store_at (g_req g) (s_request s) (p_reqs p)) (p_bodies p) (p_msgs p), Some (Ok text))
      | Err e => (p, Some (Err e))
      | Panic => (p, Some Panic)
      | OutOfFuel => (p, Some OutOfFuel)
      end
  end.
(** A call and what it returns, if it is a call of Bytes. Simplified: a Bytes that panics on a nil map has by then stored the
    source of its request, which shows in no text. *)
Definition step (o : op) (p : pool) : pool * option (res bytes) :=
  match o with
  | NewHeader => (mkPool (p_heads p ++ [[]]) (p_reqs p) (p_bodies p) (p_msgs p), None)
  | NewReq r => (mkPool (p_heads p) (p_reqs p ++ [r]) (p_bodies p) (p_msgs p), None)
  | NewBody b => (mkPool (p_heads p) (p_reqs p) (p_bodies p ++ [b]) (p_msgs p), None)
  | SetFirst h name v =>
      (match nth_error (p_heads p) h with
       | Some m => mkPool (store h (mset (to_lower name) [v] m) (p_heads p)) (p_reqs p) (p_bodies p) (p_msgs p)
       | None => p
       end, None)
  | SetReq r x => (mkPool (p_heads p) (store r x (p_reqs p)) (p_bodies p) (p_msgs p), None)
  | WriteBody b x =>
      (match nth_error (p_bodies p) b with
       | Some y => mkPool (p_heads p) (p_reqs p) (store b (firstn (length y) x ++ skipn (length x) y) (p_bodies p)) (p_msgs p)
       | None => p
       end, None)
  | MakeReq m r h b => (make (with_version 2 (with_request m None new_sip)) r h b p, None)
  | MakeResp code h b => (make (with_response true code [] (with_version 2 new_sip)) None h b p, None)
  | PutHeader i h =>
      (match nth_error (p_msgs p) i with
       | Some g => mkPool (p_heads p) (p_reqs p) (p_bodies p) (store i (mkMsg (g_own g) h (g_req g) (g_body g)) (p_msgs p))
       | None => p
       end, None)
  | PutBody i b =>
      (match nth_error (p_msgs p) i with
       | Some g => mkPool (p_heads p) (p_reqs p) (p_bodies p) (store i (mkMsg (g_own g) (g_head g) (g_req g) b) (p_msgs p))
       | None => p
       end, None)
  | ToBytes order i => to_bytes order i p
  end.
Fixpoint run (os : list op) (p : pool) : pool :=
  match os with [] => p | o :: os' => run os' (fst (step o p)) end.
