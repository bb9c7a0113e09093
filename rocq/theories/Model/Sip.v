(** The sips package: SIP header fields, messages, and their parser. *)
From Coq Require Import String.
From Verif Require Import Base.Go Base.IO Base.Text.

(** sips/base.go:36-55 Substring. *)
Definition substring (v : bytes) (from to : Z) : res bytes :=
  let from := if from <? 0 then 0 else from in
  let to := if to <? 0 then 0 else to in
  if (from >? len v) || (from >? to) then Ok []
  else if to >? len v then go_slice v from (len v)
  else go_slice v from to.

(** * Args: sips/header_args.go *)
(** sips/header_args.go:14 Args: a Go map[string]string. *)
Definition args := smap bytes.
Definition new_args : args := [].

(** sips/header_args.go:57-90 ParseList, on runes: the loop body (62-83), with the buffer b reversed. *)
Fixpoint parse_list_loop (l : list Z) (escape quote : bool) (b : list Z) (out : list bytes) : list bytes :=
  match l with
  | [] =>
      match b with
      | [] => out                                                  (* 86: s != "" *)
      | _ => out ++ [trim_space (encode_runes (rev b))]
      end
  | r :: l' =>
      if escape then parse_list_loop l' false quote (r :: b) out
      else if quote then
        if r =? 92 then parse_list_loop l' true quote b out
        else parse_list_loop l' escape (if r =? 34 then false else quote) (r :: b) out
      else if (r =? 44) || (r =? 59) || (r =? 10) then
        parse_list_loop l' escape quote [] (out ++ [trim_space (encode_runes (rev b))])
      else if r =? 34 then parse_list_loop l' escape true (r :: b) out
      else parse_list_loop l' escape quote (r :: b) out
  end.
Definition parse_list (value : bytes) : list bytes := parse_list_loop (runes value) false false [] [].

(** sips/header_args.go:28-36, one pair: m[key] = value. v[0] and v[1:len(v)-1] are bounds-checked. *)
Definition parse_pair (m : args) (pair : bytes) : res args :=
  match cut 61 pair with
  | None => Ok (mset pair [] m)
  | Some (k, v) =>
      let* c := go_at v 0 in
      let* q := if c =? 34 then let* d := go_at v (len v - 1) in Ok (d =? 34) else Ok false in
      let* v' := if q : bool then go_slice v 1 (len v - 1) else Ok v in
      Ok (mset k v' m)
  end.
Fixpoint parse_pairs (m : args) (l : list bytes) : res args :=
  match l with
  | [] => Ok m
  | p :: l' => let* m' := parse_pair m p in parse_pairs m' l'
  end.
(** sips/header_args.go:25-39 ParseArgsPairs. *)
Definition parse_args_pairs (value : bytes) : res args := parse_pairs new_args (parse_list (trim_space value)).
(** sips/header_args.go:42-49 ParseArgs. *)
Definition parse_args (s : bytes) : res args :=
  match cut 59 s with
  | None => Ok new_args
  | Some (_, t) => parse_args_pairs t
  end.

(** sips/header_args.go:100-102 Get. *)
Definition args_get (a : args) (k : bytes) : bytes := match mget k a with Some v => v | None => [] end.
(** sips/header_args.go:105-107 Set. *)
Definition args_set (a : args) (k v : bytes) : args := mset k v a.
(** sips/header_args.go:94-96 Del. *)
Definition args_del (a : args) (k : bytes) : args := filter (fun p => negb (bytes_eqb k (fst p))) a.

(** sips/header_args.go:111-121 SemicolonString; the list order is the iteration order. *)
Definition semicolon_string (a : args) : bytes :=
  flat_map (fun p => match snd p with
                     | [] => [59] ++ fst p
                     | v => [59] ++ fst p ++ [61] ++ v
                     end) a.
(** sips/header_args.go:125-135 CommaString. *)
Definition comma_string (a : args) : bytes :=
  match a with
  | [] => []
  | _ => let r := flat_map (fun p => fst p ++ [61] ++ quote (snd p) ++ str ", ") a in
         firstn (length r - 2) r
  end.
(** sips/header_args.go:138-148 CRLFString. *)
Definition crlf_string (a : args) : bytes := flat_map (fun p => fst p ++ [61] ++ snd p ++ [13; 10]) a.

(** * sips/version.go and sips/method.go *)
(** sips/version.go:18-28 String. *)
Definition version_string (v : Z) : bytes := if v =? 1 then str "SIP/1.0" else str "SIP/2.0".
(** sips/version.go:31-40 GetSIPVersion. *)
Definition get_version (s : bytes) : res Z :=
  let u := to_upper s in
  if bytes_eqb u (str "SIP/1.0") then Ok 1 else if bytes_eqb u (str "SIP/2.0") then Ok 2 else Err EOther.

(** sips/method.go:33-68, 72-107: the names of methods 1 to 15. *)
Definition method_names : list bytes :=
  [str "INVITE"; str "ACK"; str "BYE"; str "CANCEL"; str "OPTIONS"; str "REGISTER"; str "PRACK"; str "SUBSCRIBE";
   str "NOTIFY"; str "PUBLISH"; str "INFO"; str "REFER"; str "MESSAGE"; str "UPDATE"; str "PING"].
(** sips/method.go:33-68 String. *)
Definition method_string (m : Z) : bytes :=
  if (1 <=? m) && (m <=? 15) then nth (Z.to_nat (m - 1)) method_names [] else str "Unknown method".
(** sips/method.go:72-107 GetSIPMethod: the cases are tried in order. *)
Fixpoint find_name (u : bytes) (i : Z) (l : list bytes) : res Z :=
  match l with
  | [] => Err EOther
  | n :: l' => if bytes_eqb u n then Ok i else find_name u (i + 1) l'
  end.
Definition get_method (s : bytes) : res Z := find_name (to_upper s) 1 method_names.

(** * sips/status.go:73-139 *)
Definition status_texts : list (Z * bytes) :=
  [(100, str "Trying"); (180, str "Ringing"); (181, str "Call Is Being Forwarded"); (182, str "Queued");
   (183, str "Session Progress"); (200, str "OK"); (300, str "Multiple Choices"); (301, str "Moved Permanently");
   (302, str "Moved Temporarily"); (305, str "Use Proxy"); (380, str "Alternative Service");
   (400, str "Bad Request"); (401, str "Unauthorized"); (402, str "Payment Required"); (403, str "Forbidden");
   (404, str "Not Found"); (405, str "Method Not Allowed"); (406, str "Not Acceptable");
   (407, str "Proxy Authentication Required"); (408, str "Request Timeout"); (410, str "Gone");
   (413, str "Request Entity Too Large"); (414, str "Request-URI Too Long"); (415, str "Unsupported Media Type");
   (416, str "Unsupported URI Scheme"); (420, str "Bad Extension"); (421, str "Extension Required");
   (423, str "Interval Too Brief"); (480, str "No Response"); (481, str "Call/Transaction Does Not Exist");
   (482, str "Loop Detected"); (483, str "Too Many Hops"); (484, str "Address Incomplete"); (485, str "Ambiguous");
   (486, str "Busy Here"); (487, str "Request Terminated"); (488, str "Not Acceptable Here");
   (491, str "Request Pending"); (493, str "Undecipherable"); (500, str "Server Internal Error");
   (501, str "Not Implemented"); (502, str "Bad Gateway"); (503, str "Service Unavailable");
   (504, str "Server Timeout"); (505, str "Version Not Supported"); (513, str "Message Too Large");
   (600, str "Busy Everywhere"); (603, str "Decline"); (604, str "Does Not Exist Anywhere");
   (606, str "Not Acceptable")].
(** sips/status.go:127-129 Text: the empty string for an unknown code. *)
Definition status_text (c : Z) : bytes :=
  match find (fun p => fst p =? c) status_texts with Some (_, t) => t | None => [] end.
(** sips/status.go:137-139 String. *)
Definition status_string (c : Z) : bytes := itoa c.

(** * The one-pass field scanners. The position pos of the Go loops is represented by the suffix uri[pos:], so
    that Substring(uri, pos, pos+n) is [sub rest n]. [fuel] bounds the number of iterations. *)
(** sips/base.go:5-13. *)
Inductive field := FBase | FName | FUser | FHost | FPort | FID | FMethod.
Definition sub (rest : bytes) (n : nat) : bytes := firstn n rest.

(** sips/cseq.go:11-15 SIPCseq. *)
Record cseq := mkCseq { q_id : bytes; q_method : bytes; q_src : bytes }.
(** sips/cseq.go:32-49, the loop. *)
Fixpoint cseq_loop (fuel : nat) (rest : bytes) (st : field) (id method : bytes) : res (bytes * bytes) :=
  match fuel with
  | O => OutOfFuel
  | S f =>
      match rest with
      | [] => Ok (id, method)
      | c :: t =>
          match st with
          | FID => if c =? 32 then cseq_loop f t FMethod id method else cseq_loop f t st (id ++ [c]) method
          | FMethod => cseq_loop f t st id (method ++ [c])
          | _ => cseq_loop f t st id method
          end
      end
  end.
(** sips/cseq.go:23-55 NewSIPCseq. *)
Definition new_cseq (uri : bytes) : res cseq :=
  let* r := cseq_loop (S (length uri)) uri FID [] [] in
  Ok (mkCseq (fst r) (snd r) uri).
(** sips/cseq.go:58-73 Bytes, String (the update of Src is in [cseq_stored]). *)
Definition cseq_bytes (s : cseq) : bytes := q_id s ++ [32] ++ q_method s.
Definition cseq_stored (s : cseq) : cseq := mkCseq (q_id s) (q_method s) (cseq_bytes s).

(** sips/request.go:26-33 SIPRequest. *)
Record request := mkReq { r_type : bytes; r_user : bytes; r_host : bytes; r_port : bytes; r_args : args; r_src : bytes }.
(** sips/request.go:52-94, the loop: (uri[pos:], URIType, user, host, port). *)
Fixpoint req_loop (fuel : nat) (rest : bytes) (st : field) (ty user host port : bytes)
  : res (bytes * bytes * bytes * bytes * bytes) :=
  match fuel with
  | O => OutOfFuel
  | S f =>
      match rest with
      | [] => Ok (rest, ty, user, host, port)
      | c :: t =>
          if c =? 59 then Ok (rest, ty, user, host, port) else
          match st with
          | FBase =>
              if bytes_eqb (sub rest 4) (str "sip:") || bytes_eqb (sub rest 4) (str "tel:")
              then req_loop f (skipn 4 rest) FUser (sub rest 3) user host port
              else if bytes_eqb (sub rest 5) (str "sips:")
              then req_loop f (skipn 5 rest) FUser (sub rest 4) user host port
              else req_loop f t st ty user host port
          | FUser =>
              if c =? 64 then req_loop f t FHost ty user host port
              else req_loop f t st ty (user ++ [c]) host port
          | FHost =>
              if c =? 58 then req_loop f t FPort ty user host port
              else req_loop f t st ty user (host ++ [c]) port
          | FPort => req_loop f t st ty user host (port ++ [c])
          | _ => req_loop f t st ty user host port
          end
      end
  end.
(** sips/request.go:41-105 NewSIPRequest. *)
Definition new_request (uri : bytes) : res request :=
  let* r := req_loop (S (length uri)) uri FBase (str "sip") [] [] [] in
  let '(rest, ty, user, host, port) := r in
  let* a := match rest with [] => Ok new_args | _ => parse_args rest end in
  Ok (mkReq ty user host port a uri).
(** sips/request.go:108-136 Bytes, String. *)
Definition port_part (p : bytes) : bytes := match p with [] => [] | _ => [58] ++ p end.
Definition request_bytes (s : request) : bytes :=
  r_type s ++ [58] ++ r_user s ++ [64] ++ r_host s ++ port_part (r_port s) ++ semicolon_string (r_args s).
Definition request_stored (s : request) : request :=
  mkReq (r_type s) (r_user s) (r_host s) (r_port s) (r_args s) (request_bytes s).

(** sips/via.go:16-22 SIPVia. *)
Record via := mkVia { v_trans : bytes; v_host : bytes; v_port : bytes; v_args : args; v_src : bytes }.
(** sips/via.go:40-90, the loop. *)
Fixpoint via_loop (fuel : nat) (rest : bytes) (st : field) (trans host port : bytes)
  : res (bytes * bytes * bytes * bytes) :=
  match fuel with
  | O => OutOfFuel
  | S f =>
      match rest with
      | [] => Ok (rest, trans, host, port)
      | c :: t =>
          if c =? 59 then Ok (rest, trans, host, port) else
          if c =? 32 then via_loop f t st trans host port else
          match st with
          | FBase =>
              if bytes_eqb (sub rest 8) (str "SIP/2.0/") then
                let rest8 := skipn 8 rest in
                if bytes_eqb (sub rest8 3) (str "UDP") || bytes_eqb (sub rest8 3) (str "TCP") || bytes_eqb (sub rest8 3) (str "TLS")
                then via_loop f (skipn 3 rest8) FHost (sub rest8 3) host port
                else if bytes_eqb (sub rest8 4) (str "SCTP")
                then via_loop f (skipn 4 rest8) FHost (sub rest8 4) host port
                else via_loop f (skipn 1 rest8) FHost trans host port      (* 89: pos++ *)
              else via_loop f t st trans host port
          | FHost =>
              if c =? 58 then via_loop f t FPort trans host port
              else via_loop f t st trans (host ++ [c]) port
          | FPort => via_loop f t st trans host (port ++ [c])
          | _ => via_loop f t st trans host port
          end
      end
  end.
(** sips/via.go:30-100 NewSIPVia. *)
Definition new_via (uri : bytes) : res via :=
  let* r := via_loop (S (length uri)) uri FBase [] [] [] in
  let '(rest, trans, host, port) := r in
  let* a := match rest with [] => Ok new_args | _ => parse_args rest end in
  Ok (mkVia trans host port a uri).
(** sips/via.go:103-128 Bytes, String. *)
Definition via_bytes (s : via) : bytes :=
  version_string 2 ++ [47] ++ v_trans s ++ [32] ++ v_host s ++ port_part (v_port s) ++ semicolon_string (v_args s).

(** sips/user.go:19-27 SIPUser. *)
Record user := mkUser { u_type : bytes; u_name : bytes; u_user : bytes; u_host : bytes; u_port : bytes;
                        u_args : args; u_src : bytes }.
(** sips/user.go:55-116, the loop: (uri[pos:], URIType, name, user, host, port). *)
Fixpoint user_loop (fuel : nat) (rest : bytes) (st : field) (ty name user host port : bytes)
  : res (bytes * bytes * bytes * bytes * bytes * bytes) :=
  match fuel with
  | O => OutOfFuel
  | S f =>
      match rest with
      | [] => Ok (rest, ty, name, user, host, port)
      | c :: t =>
          if c =? 59 then Ok (rest, ty, name, user, host, port) else
          if (c =? 62) || ((c =? 32) && match st with FName => false | _ => true end)
          then user_loop f t FBase ty name user host port else
          match st with
          | FBase =>
              if bytes_eqb (sub rest 4) (str "sip:") || bytes_eqb (sub rest 4) (str "tel:")
              then user_loop f (skipn 4 rest) FUser (sub rest 3) name user host port
              else if bytes_eqb (sub rest 5) (str "sips:")
              then user_loop f (skipn 5 rest) FUser (sub rest 4) name user host port
              else if (c =? 34) || bytes_eqb ty []
              then user_loop f rest FName ty name user host port            (* 83: continue, pos unchanged *)
              else user_loop f t st ty name user host port
          | FName =>
              if (c =? 34) || (c =? 60) then user_loop f t FBase ty name user host port
              else user_loop f t st ty (name ++ [c]) user host port
          | FUser =>
              if c =? 64 then user_loop f t FHost ty name user host port
              else user_loop f t st ty name (user ++ [c]) host port
          | FHost =>
              if c =? 58 then user_loop f t FPort ty name user host port
              else user_loop f t st ty name user (host ++ [c]) port
          | FPort => user_loop f t st ty name user host (port ++ [c])
          | _ => user_loop f t st ty name user host port
          end
      end
  end.
(** sips/user.go:44-132 NewSIPUser. At most two iterations per position. *)
Definition new_user (uri : bytes) : res user :=
  let* r := user_loop (2 * length uri + 2) uri FBase (str "sip") [] [] [] [] in
  let '(rest, ty, name, us, host, port) := r in
  let* a := match rest with [] => Ok new_args | _ => parse_args rest end in
  Ok (mkUser ty (trim_space name) us host port a uri).
(** sips/user.go:135-176 Bytes, String. *)
Definition name_part (n : bytes) : bytes :=
  match n with
  | [] => []
  | _ => (if bytes_eqb n (str "Anonymous") then n else quote n) ++ [32]
  end.
Definition user_bytes (s : user) : bytes :=
  name_part (u_name s) ++ [60] ++ u_type s ++ [58] ++ u_user s ++ [64] ++ u_host s ++ port_part (u_port s)
  ++ [62] ++ semicolon_string (u_args s).
(** sips/user.go:179-190 ToRequest; sips/request.go:139-150 ToUser. *)
Definition user_to_request (s : user) : request := mkReq (u_type s) (u_user s) (u_host s) (u_port s) (u_args s) (u_src s).
Definition request_to_user (s : request) : user := mkUser (r_type s) [] (r_user s) (r_host s) (r_port s) (r_args s) (r_src s).

(** sips/auth.go:8-34 SIPAuth, NewSIPAuth. *)
Record auth := mkAuth { a_args : args; a_src : bytes }.
Definition new_auth (src : bytes) : res auth :=
  if (8 <=? len src) && bytes_eqb (to_lower (take src 7)) (str "digest ")
  then let* a := parse_args_pairs (drop src 7) in Ok (mkAuth a src)
  else Ok (mkAuth new_args src).

(** * sips/header.go *)
(** sips/header.go:12-32. *)
Definition compact_names : smap bytes :=
  [(str "accept-contact", str "a"); (str "allow-events", str "u"); (str "call-id", str "i"); (str "contact", str "m");
   (str "content-encoding", str "e"); (str "content-length", str "l"); (str "content-type", str "c");
   (str "event", str "o"); (str "from", str "f"); (str "identity", str "y"); (str "refer-to", str "r");
   (str "referred-by", str "b"); (str "reject-contact", str "j"); (str "request-disposition", str "d");
   (str "session-expires", str "x"); (str "subject", str "s"); (str "supported", str "k"); (str "to", str "t");
   (str "via", str "v")].
Definition compact_of (n : bytes) : bytes := match mget n compact_names with Some c => c | None => [] end.
(** sips/header.go:35 SIPHeader: a Go map[string][]string; [None] is the nil map. *)
Definition hmap := smap (list bytes).
Definition header := option hmap.
Definition hlook (h : header) (k : bytes) : option (list bytes) := match h with Some m => mget k m | None => None end.
Definition hvals (h : header) (k : bytes) : list bytes := match hlook h k with Some l => l | None => [] end.
(** sips/header.go:50-61 GetHeader. *)
Definition get_header (h : header) (name : bytes) : list bytes :=
  let n := to_lower name in
  match hlook h n with
  | None => []
  | Some (v :: l) => v :: l
  | Some [] => hvals h (compact_of n)
  end.
(** sips/header.go:66-76 GetFirstHeader. *)
Definition get_first (h : header) (name : bytes) : bytes :=
  let n := to_lower name in
  match hlook h n with
  | None => []
  | Some (v :: _) => v
  | Some [] => match hvals h (compact_of n) with v :: _ => v | [] => [] end
  end.
(** sips/header.go:79-82 SetFirstHeader: writing to a nil map panics. *)
Definition set_first (h : header) (name v : bytes) : res header :=
  match h with
  | None => Panic
  | Some m => Ok (Some (mset (to_lower name) [v] m))
  end.
(** sips/header.go:92-108 Bytes, over the entries in iteration order. *)
Definition header_bytes (entries : hmap) : bytes :=
  flat_map (fun p => fst p ++ [58] ++ flat_map (fun v => [32] ++ v ++ [13; 10]) (snd p)) entries.
(** sips/header.go:140-142 GetContentLength. *)
Definition get_content_length (h : header) : res Z := atoi (get_first h (str "content-length")).
(** sips/header.go:115-137 GetSIPFrom, GetSIPTo, GetSIPContact, GetSIPCseq, GetSIPVia. *)
Definition get_sip_from (h : header) : res user := new_user (get_first h (str "from")).
Definition get_sip_to (h : header) : res user := new_user (get_first h (str "to")).
Definition get_sip_contact (h : header) : res user := new_user (get_first h (str "contact")).
Definition get_sip_cseq (h : header) : res cseq := new_cseq (get_first h (str "cseq")).
Definition get_sip_via (h : header) : res via := new_via (get_first h (str "via")).
(** sips/header.go:145-157 GetCallID, GetAuthorization, GetExpires. *)
Definition get_call_id (h : header) : bytes := get_first h (str "call-id").
Definition get_authorization (h : header) : res auth := new_auth (get_first h (str "authorization")).
Definition get_expires (h : header) : bytes := get_first h (str "expires").
(** sips/header.go:160-164 CopyFrom. *)
Fixpoint copy_from (h src : header) (names : list bytes) : res header :=
  match names with
  | [] => Ok h
  | n :: l => let* h' := set_first h n (get_first src n) in copy_from h' src l
  end.
(** sips/header.go:167-169 SetContentLength. *)
Definition set_content_length (h : header) (size : Z) : res header := set_first h (str "content-length") (itoa size).

(** sips/header.go:172-229: the other setters. *)
Definition set_call_id (h : header) (v : bytes) : res header := set_first h (str "call-id") v.
Definition set_max_forwards (h : header) (n : Z) : res header := set_first h (str "max-forwards") (itoa n).
Definition set_reason_phrase (h : header) (v : bytes) : res header := set_first h (str "reason-phrase") v.
Definition set_supported (h : header) (v : bytes) : res header := set_first h (str "supported") v.
Definition set_subject (h : header) (v : bytes) : res header := set_first h (str "subject") v.
Definition set_content_type (h : header) (v : bytes) : res header := set_first h (str "content-type") v.
Definition set_allow (h : header) (v : bytes) : res header := set_first h (str "allow") v.
Definition set_sip_from (h : header) (u : user) : res header := set_first h (str "from") (user_bytes u).
Definition set_sip_to (h : header) (u : user) : res header := set_first h (str "to") (user_bytes u).
Definition set_sip_contact (h : header) (u : user) : res header := set_first h (str "contact") (user_bytes u).
Definition set_sip_cseq (h : header) (q : cseq) : res header := set_first h (str "cseq") (cseq_bytes q).
Definition set_sip_via (h : header) (v : via) : res header := set_first h (str "via") (via_bytes v).

(** * sips/sips.go *)
(** sips/sips.go:20-45 SIP. *)
Record sip := mkSip {
  s_contents : bytes; s_payload : bytes;                       (* BaseLayer *)
  s_version : Z; s_headers : header;
  s_from : option user; s_to : option user; s_contact : option user; s_cseq : option cseq; s_via : option via;
  s_method : Z; s_request : option request;
  s_isresp : bool; s_code : Z; s_status : bytes;
  s_last : bytes }.
(** sips/sips.go:48-52 NewSIP. *)
Definition new_sip : sip := mkSip [] [] 0 (Some []) None None None None None 0 None false 0 [] [].
Definition with_layer (c p : bytes) (s : sip) : sip :=
  mkSip c p (s_version s) (s_headers s) (s_from s) (s_to s) (s_contact s) (s_cseq s) (s_via s) (s_method s) (s_request s)
        (s_isresp s) (s_code s) (s_status s) (s_last s).
Definition with_version (v : Z) (s : sip) : sip :=
  mkSip (s_contents s) (s_payload s) v (s_headers s) (s_from s) (s_to s) (s_contact s) (s_cseq s) (s_via s) (s_method s) (s_request s)
        (s_isresp s) (s_code s) (s_status s) (s_last s).
(** sips/sips.go:267-269 SetHeader. *)
Definition with_headers (h : header) (s : sip) : sip :=
  mkSip (s_contents s) (s_payload s) (s_version s) h (s_from s) (s_to s) (s_contact s) (s_cseq s) (s_via s) (s_method s) (s_request s)
        (s_isresp s) (s_code s) (s_status s) (s_last s).
Definition with_request (m : Z) (r : option request) (s : sip) : sip :=
  mkSip (s_contents s) (s_payload s) (s_version s) (s_headers s) (s_from s) (s_to s) (s_contact s) (s_cseq s) (s_via s) m r
        (s_isresp s) (s_code s) (s_status s) (s_last s).
Definition with_response (b : bool) (code : Z) (st : bytes) (s : sip) : sip :=
  mkSip (s_contents s) (s_payload s) (s_version s) (s_headers s) (s_from s) (s_to s) (s_contact s) (s_cseq s) (s_via s) (s_method s)
        (s_request s) b code st (s_last s).
Definition with_last (l : bytes) (s : sip) : sip :=
  mkSip (s_contents s) (s_payload s) (s_version s) (s_headers s) (s_from s) (s_to s) (s_contact s) (s_cseq s) (s_via s) (s_method s)
        (s_request s) (s_isresp s) (s_code s) (s_status s) l.
Definition with_common (f t c : user) (q : cseq) (v : via) (s : sip) : sip :=
  mkSip (s_contents s) (s_payload s) (s_version s) (s_headers s) (Some f) (Some t) (Some c) (Some q) (Some v) (s_method s)
        (s_request s) (s_isresp s) (s_code s) (s_status s) (s_last s).
(** sips/sips.go:272-274 SetBody. *)
Definition set_body (b : bytes) (s : sip) : sip := with_layer (s_contents s) b s.

(** sips/easy.go:4-20 MakeRequest (a nil *SIPRequest is [None]). *)
Definition make_request (m : Z) (r : option request) (h : header) (body : bytes) : sip :=
  let s := with_version 2 (with_request m r new_sip) in
  let s := match h with Some (_ :: _) => with_headers h s | _ => s end in
  match body with [] => s | _ => set_body body s end.
(** sips/easy.go:23-39 MakeResponse. *)
Definition make_response (code : Z) (h : header) (body : bytes) : sip :=
  let s := with_response true code [] (with_version 2 new_sip) in
  let s := match h with Some (_ :: _) => with_headers h s | _ => s end in
  match body with [] => s | _ => set_body body s end.

(** sips/request.go:161-217 ParseFirstLine: the object is updated even when an error is returned. *)
Definition parse_first_line (line : bytes) (s : sip) : sip * res unit :=
  match split3 line with
  | [a; b; c] =>
      if has_prefix a (str "SIP") then
        let s := with_response true (s_code s) (s_status s) s in
        match get_version a with
        | Ok v =>
            let s := with_version v s in
            match atoi b with
            | Ok code => (with_response true code c s, Ok tt)
            | _ => (s, Err EOther)
            end
        | _ => (with_version 0 s, Err EOther)
        end
      else
        match get_method a with
        | Ok m =>
            match new_request b with
            | Ok r =>
                let s := with_request m (Some r) s in
                match get_version c with
                | Ok v => (with_version v s, Ok tt)
                | _ => (with_version 0 s, Err EOther)
                end
            | Err e => (with_request m (s_request s) s, Err e)
            | Panic => (with_request m (s_request s) s, Panic)
            | OutOfFuel => (s, OutOfFuel)
            end
        | _ => (with_request 0 (s_request s) s, Err EOther)
        end
  | _ => (s, Err EOther)
  end.

(** l[len(l)-1] += x; None when l is empty (index out of range). *)
Fixpoint append_last (x : bytes) (l : list bytes) : option (list bytes) :=
  match l with
  | [] => None
  | [v] => Some [v ++ x]
  | v :: l' => match append_last x l' with Some l'' => Some (v :: l'') | None => None end
  end.
(** sips/sips.go:191-219 ParseHeader. *)
Definition parse_header (line : bytes) (s : sip) : sip * res unit :=
  match line with
  | [] => (s, Ok tt)
  | c :: _ =>
      if (c =? 9) || (c =? 32) then
        match append_last (32 :: trim_space line) (hvals (s_headers s) (s_last s)), s_headers s with
        | Some l, Some m => (with_headers (Some (mset (s_last s) l m)) s, Ok tt)
        | _, _ => (s, Panic)
        end
      else
        match cut 58 line with
        | None => (s, Ok tt)
        | Some (a, b) =>
            let name := to_lower (trim_sp a) in
            match s_headers s with
            | None => (s, Panic)
            | Some m =>
                (with_last name (with_headers (Some (mset name (hvals (s_headers s) name ++ [trim_sp b]) m)) s), Ok tt)
            end
        end
  end.

(** bufio.Reader of size [bf_size] (bufio.NewReader: 4096) over an io.Reader that delivers the given chunks, at
    most one per Read call, and then io.EOF. Sources that fail otherwise, that return data and io.EOF
    together, or that return nothing 100 times in a row are in Model/SipSrc.v (here an empty chunk is a Read that is retried). *)
Record bufr := mkB { bf_buf : bytes; bf_eof : bool; bf_src : list bytes; bf_size : Z }.
Definition new_reader (s : bytes) : bufr := mkB [] false [s] 4096.
(** One Read of the source with room for n > 0 bytes. *)
Fixpoint src_read (n : Z) (cs : list bytes) : option (bytes * list bytes) :=
  match cs with
  | [] => None
  | c :: cs' =>
      match c with
      | [] => src_read n cs'
      | _ => if len c <=? n then Some (c, cs') else Some (take c n, drop c n :: cs')
      end
  end.
(** bufio.Reader.ReadSlice('\n'): the line, and whether the error is io.EOF; [Err] is bufio.ErrBufferFull. *)
Fixpoint read_slice (fuel : nat) (b : bufr) : bufr * res (bytes * bool) :=
  match fuel with
  | O => (b, OutOfFuel)
  | S f =>
      match cut 10 (bf_buf b) with
      | Some (l, rest) => (mkB rest (bf_eof b) (bf_src b) (bf_size b), Ok (l ++ [10], false))
      | None =>
          if bf_eof b then (mkB [] false (bf_src b) (bf_size b), Ok (bf_buf b, true))
          else if len (bf_buf b) >=? bf_size b then (mkB [] (bf_eof b) (bf_src b) (bf_size b), Err EOther)
          else match src_read (bf_size b - len (bf_buf b)) (bf_src b) with
               | None => read_slice f (mkB (bf_buf b) true [] (bf_size b))
               | Some (d, cs) => read_slice f (mkB (bf_buf b ++ d) false cs (bf_size b))
               end
      end
  end.
(** bufio.Reader.Read(buf) with len(buf) = n > 0; None is io.EOF. *)
Definition buf_read (n : Z) (b : bufr) : bufr * option bytes :=
  match bf_buf b with
  | [] =>
      if bf_eof b then (mkB [] false (bf_src b) (bf_size b), None)
      else if n >=? bf_size b then
        match src_read n (bf_src b) with
        | None => (mkB [] false [] (bf_size b), None)
        | Some (d, cs) => (mkB [] false cs (bf_size b), Some d)
        end
      else
        match src_read (bf_size b) (bf_src b) with
        | None => (mkB [] false [] (bf_size b), None)
        | Some (d, cs) => (mkB (drop d n) false cs (bf_size b), Some (take d n))
        end
  | d => (mkB (drop d n) (bf_eof b) (bf_src b) (bf_size b), Some (take d n))
  end.
(** The bytes a bufio.Reader has not handed out yet. *)
Definition bf_rest (b : bufr) : bytes := bf_buf b ++ concat (bf_src b).

(** sips/sips.go:59-66 fillHeader. *)
Definition fill_header (s : sip) : sip * res unit :=
  let h := s_headers s in
  match get_sip_contact h, get_sip_cseq h, get_sip_from h, get_sip_to h, get_sip_via h with
  | Ok c, Ok q, Ok f, Ok t, Ok v => (with_common f t c q v s, Ok tt)
  | _, _, _, _, _ => (s, Panic)
  end.

(** sips/sips.go:78-101 fillBody, the loop. *)
Fixpoint body_loop (fuel : nat) (size : Z) (body : bytes) (b : bufr) : bufr * res bytes :=
  if size <=? 0 then (b, Ok body) else
  match fuel with
  | O => (b, OutOfFuel)
  | S f =>
      match buf_read 4096 b with
      | (b', None) => (b', Ok body)
      | (b', Some d) => body_loop f (size - len d) (body ++ d) b'
      end
  end.
(** sips/sips.go:68-104 fillBody. *)
Definition fill_body (h : header) (supplement : Z) (b : bufr) : bufr * res bytes :=
  match get_content_length h with
  | Ok size => body_loop (S (length (bf_rest b))) (size - supplement) [] b
  | _ => (b, Err EOther)
  end.

(** sips/sips.go:114-155 Parse, the line loop. [buffer] is what was read, [offset] where the payload starts. *)
Fixpoint parse_lines (fuel : nat) (b : bufr) (count : Z) (offset : Z) (buffer : bytes) (s : sip)
  : bufr * (sip * res (Z * bytes)) :=
  match fuel with
  | O => (b, (s, OutOfFuel))
  | S f =>
      match read_slice (S (S (length (bf_rest b)))) b with
      | (b', Ok (line, eof)) =>
          if eof && (len line =? 0) then (b', (s, Ok (offset, buffer))) else
          let buffer := buffer ++ line in
          let offset := offset + len line in
          let trim := trim_crlf line in
          if len trim =? 0 then (b', (s, Ok (offset - len line, buffer))) else
          match (if count =? 0 then parse_first_line trim s else parse_header trim s) with
          | (s', Ok _) => parse_lines f b' (count + 1) offset buffer s'
          | (s', Err e) => (b', (s', Err e))
          | (s', Panic) => (b', (s', Panic))
          | (s', OutOfFuel) => (b', (s', OutOfFuel))
          end
      | (b', Err e) => (b', (s, Err e))
      | (b', Panic) => (b', (s, Panic))
      | (b', OutOfFuel) => (b', (s, OutOfFuel))
      end
  end.
(** sips/sips.go:107-171 Parse. *)
Definition sip_parse (b : bufr) (s : sip) : bufr * (sip * res unit) :=
  match parse_lines (S (S (length (bf_rest b)))) b 0 0 [] s with
  | (b, (s, Ok (offset, buffer))) =>
      match fill_header s with
      | (s, Ok _) =>
          match fill_body (s_headers s) (len buffer - offset) b with
          | (b, Ok body) =>
              let buffer := buffer ++ body in
              (b, (with_layer (take buffer offset) (drop buffer offset) s, Ok tt))
          | (b, Err e) => (b, (s, Err e))
          | (b, Panic) => (b, (s, Panic))
          | (b, OutOfFuel) => (b, (s, OutOfFuel))
          end
      | (s, r) => (b, (s, r))
      end
  | (b, (s, Err e)) => (b, (s, Err e))
  | (b, (s, Panic)) => (b, (s, Panic))
  | (b, (s, OutOfFuel)) => (b, (s, OutOfFuel))
  end.
(** sips/sips.go:174-176 ParseBytes. *)
Definition sip_parse_bytes (s : bytes) (x : sip) : sip * res unit := snd (sip_parse (new_reader s) x).

(** sips/sips.go:227-245: the first line. A nil Request panics. *)
Definition first_line (s : sip) : res bytes :=
  if s_isresp s then
    Ok (version_string (s_version s) ++ [32] ++ status_string (s_code s) ++ [32] ++ status_text (s_code s) ++ [13; 10])
  else
    match s_request s with
    | None => Panic
    | Some r => Ok (method_string (s_method s) ++ [32] ++ request_bytes r ++ [32] ++ version_string (s_version s) ++ [13; 10])
    end.
(** sips/sips.go:222-264 Bytes, String: the text, and the object with its updated header map and request source.
    [order] is the order in which `range` visits the header map (a permutation of it). *)
Definition sip_bytes (order : hmap -> hmap) (s : sip) : res (sip * bytes) :=
  let* first := first_line s in
  let s := if s_isresp s then s
           else with_request (s_method s) (match s_request s with Some r => Some (request_stored r) | None => None end) s in
  let* h := set_content_length (s_headers s) (len (s_payload s)) in
  let s := with_headers h s in
  let hb := match h with Some m => header_bytes (order m) | None => [] end in
  let body := match s_payload s with [] => [] | p => [13; 10] ++ p end in
  Ok (s, first ++ hb ++ body).
