(** The vectors of sips/*_test.go replayed on the model by computation. These are tests of the model against the authors'
    expectations, not proofs of properties. The three expectations of user_test.go about display names (Name = Bob,
    Anonymous, Mr. Watson) do not hold of the code: see the comment below and C82_display_name_refuted in Props/Sip.v. *)
From Coq Require Import String.
From Verif Require Import Base.Go Base.IO Base.Text Model.Sip.

Definition okd {A} (d : A) (r : res A) : A := match r with Ok a => a | _ => d end.

(** auth_test.go. *)
Definition digest : bytes := str "Digest username=""Alice"", realm=""atlanta.com""," ++ [10] ++
  str " nonce=""84a4cc6f3082121f32b42a2187831a9e""," ++ [10] ++ str " response=""7587245234b3434cc3412213e5f113a5432""".
Example auth_test : match new_auth digest with
  | Ok a => map (args_get (a_args a)) [str "username"; str "realm"; str "nonce"; str "response"] =
      [str "Alice"; str "atlanta.com"; str "84a4cc6f3082121f32b42a2187831a9e"; str "7587245234b3434cc3412213e5f113a5432"]
  | _ => False end.
Proof. vm_compute. reflexivity. Qed.
(** cseq_test.go. *)
Example cseq_test1 : new_cseq (str "4711 INVITE") = Ok (mkCseq (str "4711") (str "INVITE") (str "4711 INVITE")).
Proof. vm_compute. reflexivity. Qed.
Example cseq_test2 : cseq_bytes (mkCseq (str "4711") (str "INVITE") []) = str "4711 INVITE".
Proof. reflexivity. Qed.
(** easy_test.go. *)
Definition bye_uri : option request := Some (mkReq (str "sip") (str "01798300765") (str "87.252.61.202") [] [] []).
Definition text (s : sip) : bytes := match sip_bytes (fun m => m) s with Ok (_, t) => t | _ => [] end.
Definition crlf : bytes := [13; 10].
Example make_request_test1 : text (make_request 3 bye_uri None []) =
  str "BYE sip:01798300765@87.252.61.202 SIP/2.0" ++ crlf ++ str "content-length: 0" ++ crlf.
Proof. vm_compute. reflexivity. Qed.
Example make_request_test2 : text (make_request 3 bye_uri None [1; 2; 3]) =
  str "BYE sip:01798300765@87.252.61.202 SIP/2.0" ++ crlf ++ str "content-length: 3" ++ crlf ++ crlf ++ [1; 2; 3].
Proof. vm_compute. reflexivity. Qed.
Example make_response_test : text (make_response 200 (okd None (set_content_length (Some []) 1024)) []) =
  str "SIP/2.0 200 OK" ++ crlf ++ str "content-length: 0" ++ crlf.
Proof. vm_compute. reflexivity. Qed.
(** header_test.go. *)
Definition one (n v : bytes) : bytes := match set_first (Some []) n v with Ok (Some m) => header_bytes m | _ => [] end.
Example header_test0 : one (str "Via") (str "SIP/2.0/UDP 192.168.1.102:5060;rport;branch=z9hG4bK1135200957") = str "via: SIP/2.0/UDP 192.168.1.102:5060;rport;branch=z9hG4bK1135200957" ++ crlf.
Proof. vm_compute. repeat split. Qed.
Example header_test1 : one (str "from") (str "<sip:34020000001320000001@192.168.1.102:5060>;tag=1086912856") = str "from: <sip:34020000001320000001@192.168.1.102:5060>;tag=1086912856" ++ crlf.
Proof. vm_compute. repeat split. Qed.
Example header_test2 : one (str "To") (str "<sip:34020000002000000001@10.104.157.255:5060>") = str "to: <sip:34020000002000000001@10.104.157.255:5060>" ++ crlf.
Proof. vm_compute. repeat split. Qed.
Example header_test3 : one (str "Call-ID") (str "1808031968@192.168.1.102") = str "call-id: 1808031968@192.168.1.102" ++ crlf.
Proof. vm_compute. repeat split. Qed.
Example header_test4 : one (str "CSeq") (str "20 MESSAGE") = str "cseq: 20 MESSAGE" ++ crlf.
Proof. vm_compute. repeat split. Qed.
Example header_test5 : one (str "Max-Forwards") (str "70") = str "max-forwards: 70" ++ crlf.
Proof. vm_compute. repeat split. Qed.
Example header_test_get : get_first (okd None (set_first (Some []) (str "Via") (str "SIP/2.0/UDP 192.168.1.102:5060;rport;branch=z9hG4bK1135200957"))) (str "via") = str "SIP/2.0/UDP 192.168.1.102:5060;rport;branch=z9hG4bK1135200957".
Proof. vm_compute. repeat split. Qed.
Example header_test_raw : header_bytes [(str "User-Agent", [str "SIP UAS V2.1.4.500306"])] = str "User-Agent: SIP UAS V2.1.4.500306" ++ crlf /\
  header_bytes [(str "Content-Type", [str "Application/MANSCDP+xml"])] = str "Content-Type: Application/MANSCDP+xml" ++ crlf /\
  header_bytes [(str "Content-Length", [str "0"])] = str "Content-Length: 0" ++ crlf /\
  header_bytes [(str "Contact", [str """Mr. Watson"" <sip:watson@worcester.bell-telephone.com>"; str " ;q=0.7; expires=3600,";
                                 str " ""Mr. Watson"" <mailto:watson@bell-telephone.com> ;q=0.1"])] =
    str "Contact: ""Mr. Watson"" <sip:watson@worcester.bell-telephone.com>" ++ crlf ++ str "  ;q=0.7; expires=3600," ++ crlf ++
    str "  ""Mr. Watson"" <mailto:watson@bell-telephone.com> ;q=0.1" ++ crlf.
Proof. vm_compute. repeat split. Qed.
(** request_test.go. *)
Example request_test0 : new_request (str "sip:01798300765@87.252.61.202:5060;user=phone") =
  Ok (mkReq (str "sip") (str "01798300765") (str "87.252.61.202") (str "5060") [(str "user", str "phone")] (str "sip:01798300765@87.252.61.202:5060;user=phone")).
Proof. vm_compute. repeat split. Qed.
Example request_test1 : new_request (str "sip:01798300765@87.252.61.202:5060") =
  Ok (mkReq (str "sip") (str "01798300765") (str "87.252.61.202") (str "5060") [] (str "sip:01798300765@87.252.61.202:5060")).
Proof. vm_compute. repeat split. Qed.
Example request_test2 : new_request (str "sip:0179@8300765@87.252.61.202:5060") =
  Ok (mkReq (str "sip") (str "0179") (str "8300765@87.252.61.202") (str "5060") [] (str "sip:0179@8300765@87.252.61.202:5060")).
Proof. vm_compute. repeat split. Qed.
Example request_test3 : new_request (str "sip:user:password@host:port;uri-parameters?headers") =
  Ok (mkReq (str "sip") (str "user:password") (str "host") (str "port") [(str "uri-parameters?headers", str "")] (str "sip:user:password@host:port;uri-parameters?headers")).
Proof. vm_compute. repeat split. Qed.
Example request_bytes_test : request_bytes (mkReq (str "sip") (str "01798300765") (str "87.252.61.202") (str "5060") (okd [] (parse_args (str ";user=phone"))) []) =
    str "sip:01798300765@87.252.61.202:5060;user=phone" /\
  request_bytes (mkReq (str "sip") (str "01798300765") (str "87.252.61.202") (str "5060") [] []) = str "sip:01798300765@87.252.61.202:5060" /\
  request_bytes (mkReq (str "sip") (str "01798@300765") (str "87.252.61.202") (str "5060") [] []) = str "sip:01798@300765@87.252.61.202:5060".
Proof. vm_compute. repeat split. Qed.
Example first_line_test1 : let '(s, r) := parse_first_line (str "INVITE sip:01798300765@87.252.61.202:5060;user=phone SIP/2.0") new_sip in
  r = Ok tt /\ s_method s = 1 /\ option_map r_src (s_request s) = Some (str "sip:01798300765@87.252.61.202:5060;user=phone") /\
  s_isresp s = false /\ s_version s = 2.
Proof. vm_compute. repeat split. Qed.
Example first_line_test2 : let '(s, r) := parse_first_line (str "SIP/2.0 200 OK") new_sip in
  r = Ok tt /\ s_method s = 0 /\ s_request s = None /\ s_isresp s = true /\ s_version s = 2 /\ s_code s = 200 /\ status_text (s_code s) = str "OK".
Proof. vm_compute. repeat split. Qed.
(** sips_test.go TestSIP_Parse. *)
Definition keepalive : bytes :=
  str "MESSAGE sip:34020000002000000001@10.104.157.255:5060 SIP/2.0" ++ [10] ++
  str "Via: SIP/2.0/UDP 192.168.1.102:5060;rport;branch=z9hG4bK1135200957" ++ [10] ++
  str "From: <sip:34020000001320000001@192.168.1.102:5060>;tag=1086912856" ++ [10] ++
  str "To: <sip:34020000002000000001@10.104.157.255:5060>" ++ [10] ++
  str "Call-ID: 1808031968@192.168.1.102" ++ [10] ++
  str "CSeq: 20 MESSAGE" ++ [10] ++
  str "Max-Forwards: 70" ++ [10] ++
  str "User-Agent: SIP UAS V2.1.4.500306" ++ [10] ++
  str "Content-Type: Application/MANSCDP+xml" ++ [10] ++
  str "Content-Length:   180" ++ [10] ++
  str "" ++ [10] ++
  str "<?xml version=""1.0"" encoding=""GB2312"" ?>" ++ [10] ++
  str "<Notify>" ++ [10] ++
  str "    <CmdType>Keepalive</CmdType>" ++ [10] ++
  str "    <SN>204</SN>" ++ [10] ++
  str "    <DeviceID>34020000001320000001</DeviceID>" ++ [10] ++
  str "    <Status>OK</Status>" ++ [10] ++
  str "</Notify>".
Example sip_parse_test : let '(s, r) := sip_parse_bytes keepalive new_sip in
  r = Ok tt /\ s_method s = 13 /\ option_map u_user (s_from s) = Some (str "34020000001320000001") /\
  option_map u_user (s_to s) = Some (str "34020000002000000001") /\ option_map v_host (s_via s) = Some (str "192.168.1.102") /\
  option_map q_method (s_cseq s) = Some (str "MESSAGE") /\ s_isresp s = false /\ len (s_payload s) = 180.
Proof. vm_compute. repeat split. Qed.
(** user_test.go. The expected Name is left out where the test expects a display name: in the code URIType starts as
    sip, never empty, so an unquoted name is skipped, and a quoted one ends at its opening quote. *)
Definition fields (u : bytes) : res (bytes * bytes * bytes * bytes * args) :=
  let* s := new_user u in Ok (u_type s, u_user s, u_host s, u_port s, u_args s).
Definition named (u : bytes) : res (bytes * (bytes * bytes * bytes * bytes * args)) :=
  let* s := new_user u in Ok (u_name s, (u_type s, u_user s, u_host s, u_port s, u_args s)).
Example user_test0 : fields (str """Bob"" <sips:bob@biloxi.com> ;tag=a48s") =
  Ok (str "sips", str "bob", str "biloxi.com", str "", [(str "tag", str "a48s")]).
Proof. vm_compute. repeat split. Qed.
Example user_test1 : fields (str """Bob bb"" <sips:bob@biloxi.com> ;tag=a48s") =
  Ok (str "sips", str "bob", str "biloxi.com", str "", [(str "tag", str "a48s")]).
Proof. vm_compute. repeat split. Qed.
Example user_test2 : named (str "sip:+12125551212@phone2net.com;tag=887s") =
  Ok (str "", (str "sip", str "+12125551212", str "phone2net.com", str "", [(str "tag", str "887s")])).
Proof. vm_compute. repeat split. Qed.
Example user_test3 : fields (str "Anonymous <sip:c8oqz84zk7z@privacy.org>;tag=hyh8") =
  Ok (str "sip", str "c8oqz84zk7z", str "privacy.org", str "", [(str "tag", str "hyh8")]).
Proof. vm_compute. repeat split. Qed.
Example user_test4 : named (str "<sip:34020000001320000001@192.168.1.102:5060>;tag=1086912856") =
  Ok (str "", (str "sip", str "34020000001320000001", str "192.168.1.102", str "5060", [(str "tag", str "1086912856")])).
Proof. vm_compute. repeat split. Qed.
Example user_test5 : named (str " <sip:34020000001320000001@192.168.1.102:5060> ;tag=1086912856 ") =
  Ok (str "", (str "sip", str "34020000001320000001", str "192.168.1.102", str "5060", [(str "tag", str "1086912856")])).
Proof. vm_compute. repeat split. Qed.
Example user_test6 : named (str "<sip:34020000001320000001@192.168.1.102:5060>") =
  Ok (str "", (str "sip", str "34020000001320000001", str "192.168.1.102", str "5060", [])).
Proof. vm_compute. repeat split. Qed.
Example user_test7 : named (str "<sips:bob@192.0.2.4>;expires=60") =
  Ok (str "", (str "sips", str "bob", str "192.0.2.4", str "", [(str "expires", str "60")])).
Proof. vm_compute. repeat split. Qed.
Example user_test8 : fields (str """Mr. Watson"" <sip:watson@worcester.bell-telephone.com> ;q=0.7; expires=3600") =
  Ok (str "sip", str "watson", str "worcester.bell-telephone.com", str "", [(str "q", str "0.7"); (str "expires", str "3600")]).
Proof. vm_compute. repeat split. Qed.
Example user_test9 : fields (str """Mr. Watson"" <sip:watson@worcester.bell-telephone.com> ;q=0.7; expires=3600, ""Mr. Watson"" <mailto:watson@bell-telephone.com> ;q=0.1") =
  Ok (str "sip", str "watson", str "worcester.bell-telephone.com", str "", [(str "q", str "0.1"); (str "expires", str "3600"); (str """Mr. Watson"" <mailto:watson@bell-telephone.com>", str "")]).
Proof. vm_compute. repeat split. Qed.
Example user_bytes_test : user_bytes (mkUser (str "sips") (str "Bob") (str "bob") (str "biloxi.com") [] [(str "tag", str "a48s")] []) =
    str """Bob"" <sips:bob@biloxi.com>;tag=a48s" /\
  user_bytes (mkUser (str "sip") [] (str "+12125551212") (str "phone2net.com") [] [(str "tag", str "887s")] []) =
    str "<sip:+12125551212@phone2net.com>;tag=887s" /\
  user_bytes (mkUser (str "sip") (str "Anonymous") (str "c8oqz84zk7z") (str "privacy.org") [] [(str "tag", str "hyh8")] []) =
    str "Anonymous <sip:c8oqz84zk7z@privacy.org>;tag=hyh8" /\
  user_bytes (mkUser (str "sip") [] (str "34020000001320000001") (str "192.168.1.102") (str "5060") [(str "tag", str "1086912856")] []) =
    str "<sip:34020000001320000001@192.168.1.102:5060>;tag=1086912856".
Proof. vm_compute. repeat split. Qed.
(** via_test.go. *)
Example via_test : new_via (str "SIP/2.0/UDP 192.168.1.102:5060;rport;branch=z9hG4bK352699498") =
  Ok (mkVia (str "UDP") (str "192.168.1.102") (str "5060") [(str "rport", []); (str "branch", str "z9hG4bK352699498")]
     (str "SIP/2.0/UDP 192.168.1.102:5060;rport;branch=z9hG4bK352699498")).
Proof. vm_compute. repeat split. Qed.
Example via_bytes_test : via_bytes (mkVia (str "UDP") (str "192.168.1.102") (str "5060") [(str "branch", str "z9hG4bK352699498")] []) =
    str "SIP/2.0/UDP 192.168.1.102:5060;branch=z9hG4bK352699498" /\
  via_bytes (mkVia (str "UDP") (str "192.168.1.102") (str "5060") [(str "rport", [])] []) = str "SIP/2.0/UDP 192.168.1.102:5060;rport".
Proof. vm_compute. repeat split. Qed.
