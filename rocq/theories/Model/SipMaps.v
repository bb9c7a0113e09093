(** Programs on several SIP header maps: NewSIPHeader, the setters and CopyFrom. A map is known by the order in which it was
    made; the nil map is not among them (setting a header on it panics, Model/Sip.v set_first). *)
From Coq Require Import String.
From Verif Require Import Base.Go Base.IO Base.Text Model.Sip.
Import ListNotations.

(** sips/header.go:79-82, 167-229: the setters. *)
Inductive setter :=
| SetFirstHeader (name v : bytes) | SetContentLength (n : Z) | SetCallID (v : bytes) | SetMaxForwards (n : Z) | SetReasonPhrase (v : bytes)
| SetSupported (v : bytes) | SetSubject (v : bytes) | SetContentType (v : bytes) | SetAllow (v : bytes)
| SetSIPFrom (u : user) | SetSIPTo (u : user) | SetSIPContact (u : user) | SetSIPCseq (q : cseq) | SetSIPVia (v : via).
Definition call_setter (f : setter) (h : header) : res header :=
  match f with
  | SetFirstHeader name v => set_first h name v
  | SetContentLength n => set_content_length h n
  | SetCallID v => set_call_id h v
  | SetMaxForwards n => set_max_forwards h n
  | SetReasonPhrase v => set_reason_phrase h v
  | SetSupported v => set_supported h v
  | SetSubject v => set_subject h v
  | SetContentType v => set_content_type h v
  | SetAllow v => set_allow h v
  | SetSIPFrom u => set_sip_from h u
  | SetSIPTo u => set_sip_to h u
  | SetSIPContact u => set_sip_contact h u
  | SetSIPCseq q => set_sip_cseq h q
  | SetSIPVia v => set_sip_via h v
  end.

Inductive map_op := New | Call (i : nat) (f : setter) | Copy (i j : nat) (names : list bytes).
(** The map of number i; an op on a map that was not made yet has no meaning and is not run (see legal). *)
Definition map_of (s : list header) (i : nat) : header := nth i s None.
Fixpoint put_map (s : list header) (i : nat) (h : header) : list header :=
  match s, i with
  | [], _ => []
  | _ :: s', O => h :: s'
  | x :: s', S i' => x :: put_map s' i' h
  end.
(** sips/header.go:160-164 CopyFrom: src is read in every round, as it may be the same map. *)
Fixpoint copy_names (s : list header) (i j : nat) (names : list bytes) : res (list header) :=
  match names with
  | [] => Ok s
  | n :: l => let* h := set_first (map_of s i) n (get_first (map_of s j) n) in copy_names (put_map s i h) i j l
  end.
Definition map_step (s : list header) (o : map_op) : res (list header) :=
  match o with
  | New => Ok (s ++ [Some []])
  | Call i f => let* h := call_setter f (map_of s i) in Ok (put_map s i h)
  | Copy i j names => copy_names s i j names
  end.
Fixpoint map_run (s : list header) (os : list map_op) : res (list header) :=
  match os with [] => Ok s | o :: os' => let* s' := map_step s o in map_run s' os' end.
