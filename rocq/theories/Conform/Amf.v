(** The vectors of amf/amf0_test.go and amf/amf3_test.go replayed on the model by computation. These are tests of the
    model against the authors' expectations, not proofs of properties. *)
From Coq Require Import String.
From Verif Require Import Base.Go Base.IO Model.AmfTypes Model.Amf3 Model.Amf0.

(** Decoding one value from a bytes.Reader: the value and the maps it may refer to. *)
Definition d3 (b : bytes) : res value * list omap := let '(d, r) := decode3 (fresh (bytes_reader b)) in (r, d_heap d).
Definition d0 (b : bytes) : res value * list omap := let '(d, r) := decode0 (fresh (bytes_reader b)) in (r, d_heap d).
(** Encoding into a bytes.Buffer: the count returned and the contents. *)
Definition e3 (t : tree) : res Z * bytes := let '(w, r) := encode3 t buffer0 in (r, w_out w).
Definition e0 (t : tree) : res Z * bytes := let '(w, r) := encode0 t buffer0 in (r, w_out w).
(** Encode into a bytes.Buffer, then Decode from it. *)
Definition rt3 (t : tree) : res value * list omap :=
  let '(d, r) := decode3 (fresh (bytes_buffer (snd (e3 t)))) in (r, d_heap d).
Definition rt0 (t : tree) : res value * list omap :=
  let '(d, r) := decode0 (fresh (bytes_buffer (snd (e0 t)))) in (r, d_heap d).

(** amf3_test.go:15-32 u29TestCases. *)
Definition u29_cases : list (Z * bytes) :=
  [(1, [1]);
   (2, [2]);
   (127, [127]);
   (128, [129; 0]);
   (255, [129; 127]);
   (256, [130; 0]);
   (16383, [255; 127]);
   (16384, [129; 128; 0]);
   (32767, [129; 255; 127]);
   (32768, [130; 128; 0]);
   (2097151, [255; 255; 127]);
   (2097152, [128; 192; 128; 0]);
   (4194303, [128; 255; 255; 255]);
   (4194304, [129; 128; 128; 0]);
   (268435455, [191; 255; 255; 255])].
(** amf3_test.go:34-45 TestDecodeU29. The case 0x0FFFFFFF expects BF FF FF FF. *)
Example decode_u29_cases :
  map (fun c => snd (read_u29 (fresh (bytes_buffer (snd c))))) u29_cases = map (fun c => Ok (fst c)) u29_cases.
Proof. vm_compute. reflexivity. Qed.
Example amf3_decode_Undefined : fst (d3 [0]) = Ok (VNil).
Proof. vm_compute. repeat split. Qed.
Example amf3_decode_Null : fst (d3 [1]) = Ok (VNil).
Proof. vm_compute. repeat split. Qed.
Example amf3_decode_alse : fst (d3 [2]) = Ok (VBool false).
Proof. vm_compute. repeat split. Qed.
Example amf3_decode_True : fst (d3 [3]) = Ok (VBool true).
Proof. vm_compute. repeat split. Qed.
Example amf3_decode_Integer : fst (d3 [4; 255; 255; 127]) = Ok (VU32 2097151).
Proof. vm_compute. repeat split. Qed.
Example amf3_decode_Double : fst (d3 [5; 63; 243; 51; 51; 51; 51; 51; 51]) = Ok (VNum 4608083138725491507).
Proof. vm_compute. repeat split. Qed.
Example amf3_decode_String : fst (d3 [6; 7; 102; 111; 111]) = Ok (VStr (str "foo")).
Proof. vm_compute. repeat split. Qed.
Example amf3_decode_array : match fst (d3 [9; 19; 1; 6; 3; 49; 6; 3; 50; 6; 3; 51; 6; 3; 52; 6; 3; 53; 6; 3; 54; 6; 3; 55; 6; 3; 56; 6; 3; 57]) with
  | Ok (VEcma dense _) => dense = map (fun c => VStr [c]) [49; 50; 51; 52; 53; 54; 55; 56; 57]
  | _ => False end.
Proof. vm_compute. repeat split. Qed.
Example amf3_decode_object : d3 [10; 35; 31; 111; 114; 103; 46; 97; 109; 102; 46; 65; 83; 67; 108; 97; 115; 115; 7; 98; 97; 122; 7; 102; 111; 111; 1; 6; 7; 98; 97; 114]
  = (Ok (VObj 0), [[(str "baz", VNil); (str "foo", VStr (str "bar"))]]).
Proof. vm_compute. repeat split. Qed.
Example amf3_encode_empty : e3 (TStr []) = (Ok 2, [6; 1]).
Proof. vm_compute. repeat split. Qed.
Example amf3_encode_null : e3 TNil = (Ok 1, [1]).
Proof. vm_compute. repeat split. Qed.
Example amf3_encode_false : e3 (TBool false) = (Ok 1, [2]).
Proof. vm_compute. repeat split. Qed.
Example amf3_encode_true : e3 (TBool true) = (Ok 1, [3]).
Proof. vm_compute. repeat split. Qed.
Example amf3_encode_integer : map (fun c => snd (e3 (TUint false (fst c)))) u29_cases = map (fun c => 4 :: snd c) u29_cases /\ e3 (TUint false 4194303) = (Ok 5, [4; 128; 255; 255; 255]).
Proof. vm_compute. repeat split. Qed.
Example amf3_encode_double : e3 (TFloat 4608083138725491507) = (Ok 9, [5; 63; 243; 51; 51; 51; 51; 51; 51]).
Proof. vm_compute. repeat split. Qed.
Example amf3_encode_string : snd (e3 (TStr (str "foo"))) = [6; 7; 102; 111; 111].
Proof. vm_compute. repeat split. Qed.
Example amf3_encode_array : snd (e3 (TArr (map (fun c => TStr [c]) [49; 50; 51; 52; 53; 54; 55; 56; 57]))) =
  [9; 19; 1; 6; 3; 49; 6; 3; 50; 6; 3; 51; 6; 3; 52; 6; 3; 53; 6; 3; 54; 6; 3; 55; 6; 3; 56; 6; 3; 57].
Proof. vm_compute. repeat split. Qed.
Example amf3_encode_object0 : snd (e3 (TTyped (str "org.amf.ASClass") [(str "foo", TStr (str "bar")); (str "baz", TNil)])) =
  [10; 35; 31; 111; 114; 103; 46; 97; 109; 102; 46; 65; 83; 67; 108; 97; 115; 115; 7; 98; 97; 122; 7; 102; 111; 111; 1; 6; 7; 98; 97; 114].
Proof. vm_compute. repeat split. Qed.
Example amf3_encode_object1 : snd (e3 (TTyped (str "org.amf.ASClass") [(str "baz", TNil); (str "foo", TStr (str "bar"))])) =
  [10; 35; 31; 111; 114; 103; 46; 97; 109; 102; 46; 65; 83; 67; 108; 97; 115; 115; 7; 98; 97; 122; 7; 102; 111; 111; 1; 6; 7; 98; 97; 114].
Proof. vm_compute. repeat split. Qed.
Example amf3_rw_u29 : let '(w, r) := write_u29 100 buffer0 in r = Ok 1 /\ snd (read_u29 (fresh (bytes_buffer (w_out w)))) = Ok 100.
Proof. vm_compute. repeat split. Qed.
Example amf3_code_u29 : let '(w, r) := encode_u29 100 buffer0 in r = Ok 2 /\ snd (decode_u29 (fresh (bytes_buffer (w_out w)))) = Ok (false, 100).
Proof. vm_compute. repeat split. Qed.
Example amf3_rt_int0 : fst (rt3 (TUint false 0)) = Ok (VU32 0).
Proof. vm_compute. repeat split. Qed.
Example amf3_rt_int1 : fst (rt3 (TUint false 1245)) = Ok (VU32 1245).
Proof. vm_compute. repeat split. Qed.
Example amf3_rt_int2 : fst (rt3 (TUint false 123456)) = Ok (VU32 123456).
Proof. vm_compute. repeat split. Qed.
Example amf3_rt_double0 : fst (rt3 (TFloat 4614256650576692846)) = Ok (VNum 4614256650576692846).
Proof. vm_compute. repeat split. Qed.
Example amf3_rt_double1 : fst (rt3 (TFloat 4742964961033060352)) = Ok (VNum 4742964961033060352).
Proof. vm_compute. repeat split. Qed.
Example amf3_rt_double2 : fst (rt3 (TFloat 13891384386705686528)) = Ok (VNum 13891384386705686528).
Proof. vm_compute. repeat split. Qed.
Example amf3_rt_string0 : fst (rt3 (TStr [97; 32; 112; 117; 112; 33])) = Ok (VStr [97; 32; 112; 117; 112; 33]).
Proof. vm_compute. repeat split. Qed.
Example amf0_rt_string0 : fst (rt0 (TStr [97; 32; 112; 117; 112; 33])) = Ok (VStr [97; 32; 112; 117; 112; 33]).
Proof. vm_compute. repeat split. Qed.
Example amf3_rt_string1 : fst (rt3 (TStr [230; 151; 165; 230; 156; 172; 232; 170; 158])) = Ok (VStr [230; 151; 165; 230; 156; 172; 232; 170; 158]).
Proof. vm_compute. repeat split. Qed.
Example amf0_rt_string1 : fst (rt0 (TStr [230; 151; 165; 230; 156; 172; 232; 170; 158])) = Ok (VStr [230; 151; 165; 230; 156; 172; 232; 170; 158]).
Proof. vm_compute. repeat split. Qed.
Example amf3_rt_bool : fst (rt3 (TBool true)) = Ok (VBool true) /\ fst (rt3 (TBool false)) = Ok (VBool false) /\ fst (rt3 TNil) = Ok VNil.
Proof. vm_compute. repeat split. Qed.
Example amf3_rt_date : fst (rt3 (TTime 431525048)) = Ok (VTime 431525048).
Proof. vm_compute. repeat split. Qed.
Example amf3_rt_array : match fst (rt3 (TArr [TStr (str "amf"); TFloat 4611686018427387904; TFloat 13853487629382293914; TBool true; TBool false])) with
  | Ok (VEcma dense _) => dense = [VStr (str "amf"); VNum 4611686018427387904; VNum 13853487629382293914; VBool true; VBool false]
  | _ => False end.
Proof. vm_compute. repeat split. Qed.
Example amf3_rt_bytes : fst (rt3 (TBytes [1; 2; 3; 4; 5; 0])) = Ok (VBytes [1; 2; 3; 4; 5; 0]).
Proof. vm_compute. repeat split. Qed.

(** amf0_test.go. *)
Example amf0_decode_String : fst (d0 [2; 0; 3; 102; 111; 111]) = Ok (VStr (str "foo")).
Proof. vm_compute. repeat split. Qed.
Example amf0_decode_Number : fst (d0 [0; 63; 243; 51; 51; 51; 51; 51; 51]) = Ok (VNum 4608083138725491507).
Proof. vm_compute. repeat split. Qed.
Example amf0_decode_True : fst (d0 [1; 1]) = Ok (VBool true).
Proof. vm_compute. repeat split. Qed.
Example amf0_decode_False : fst (d0 [1; 0]) = Ok (VBool false).
Proof. vm_compute. repeat split. Qed.
Example amf0_decode_Null : fst (d0 [5]) = Ok (VNil).
Proof. vm_compute. repeat split. Qed.
Example amf0_decode_Undefined : fst (d0 [6]) = Ok (VNil).
Proof. vm_compute. repeat split. Qed.
Example amf0_decode_Date : fst (d0 [11; 64; 20; 0; 0; 0; 0; 0; 0; 0; 0]) = Ok (VNum 4617315517961601024).
Proof. vm_compute. repeat split. Qed.
Example amf0_decode_LongString : fst (d0 [12; 0; 0; 0; 3; 102; 111; 111]) = Ok (VStr (str "foo")).
Proof. vm_compute. repeat split. Qed.
Example amf0_decode_Unsupported : fst (d0 [13]) = Ok (VNil).
Proof. vm_compute. repeat split. Qed.
Example amf0_decode_XmlDocument : fst (d0 [15; 0; 0; 0; 3; 102; 111; 111]) = Ok (VStr (str "foo")).
Proof. vm_compute. repeat split. Qed.
Example amf0_decode_StrictArray : fst (d0 [10; 0; 0; 0; 3; 0; 64; 20; 0; 0; 0; 0; 0; 0; 2; 0; 3; 102; 111; 111; 5]) = Ok (VArr [VNum 4617315517961601024; VStr (str "foo"); VNil]).
Proof. vm_compute. repeat split. Qed.
Example amf0_decode_Object : d0 [3; 0; 3; 102; 111; 111; 2; 0; 3; 98; 97; 114; 0; 0; 9] = (Ok (VObj 0), [[(str "foo", VStr (str "bar"))]]).
Proof. vm_compute. repeat split. Qed.
Example amf0_decode_Reference : d0 [3; 0; 3; 102; 111; 111; 7; 0; 0; 0; 0; 9] = (Ok (VObj 0), [[(str "foo", VObj 0)]]).
Proof. vm_compute. repeat split. Qed.
Example amf0_decode_EcmaArray : d0 [8; 0; 0; 0; 1; 0; 3; 102; 111; 111; 2; 0; 3; 98; 97; 114; 0; 0; 9] = (Ok (VObj 0), [[(str "foo", VStr (str "bar"))]]).
Proof. vm_compute. repeat split. Qed.
Example amf0_decode_TypedObject : d0 [16; 0; 15; 111; 114; 103; 46; 97; 109; 102; 46; 65; 83; 67; 108; 97; 115; 115; 0; 3; 98; 97; 122; 5; 0; 3; 102; 111; 111; 2; 0; 3; 98; 97; 114; 0; 0; 9]
  = (Ok (VTyped (str "org.amf.ASClass") (Some 0%nat)), [[(str "baz", VNil); (str "foo", VStr (str "bar"))]]).
Proof. vm_compute. repeat split. Qed.
Example amf0_encode_Number : e0 (TFloat 4608083138725491507) = (Ok 9, [0; 63; 243; 51; 51; 51; 51; 51; 51]).
Proof. vm_compute. repeat split. Qed.
Example amf0_encode_True : e0 (TBool true) = (Ok 2, [1; 1]).
Proof. vm_compute. repeat split. Qed.
Example amf0_encode_False : e0 (TBool false) = (Ok 2, [1; 0]).
Proof. vm_compute. repeat split. Qed.
Example amf0_encode_String : e0 (TStr (str "foo")) = (Ok 6, [2; 0; 3; 102; 111; 111]).
Proof. vm_compute. repeat split. Qed.
Example amf0_encode_Object : e0 (TObj [(str "foo", TStr (str "bar"))]) = (Ok 15, [3; 0; 3; 102; 111; 111; 2; 0; 3; 98; 97; 114; 0; 0; 9]).
Proof. vm_compute. repeat split. Qed.
Example amf0_encode_EcmaArray : w_out (fst (encode_ecma0 [(str "foo", TStr (str "bar"))] buffer0)) =
  [8; 0; 0; 0; 1; 0; 3; 102; 111; 111; 2; 0; 3; 98; 97; 114; 0; 0; 9].
Proof. vm_compute. repeat split. Qed.
Example amf0_encode_StrictArray : snd (e0 (TArr [TFloat 4617315517961601024; TStr (str "foo"); TNil])) =
  [10; 0; 0; 0; 3; 0; 64; 20; 0; 0; 0; 0; 0; 0; 2; 0; 3; 102; 111; 111; 5].
Proof. vm_compute. repeat split. Qed.
Example amf0_encode_Null : e0 TNil = (Ok 1, [5]).
Proof. vm_compute. repeat split. Qed.
Example amf0_encode_LongString : let s := concat (repeat (str "12345678") (Z.to_nat 65536)) in let b := snd (e0 (TStr s)) in bytes_eqb b (12 :: be32 (65536 * 8) ++ s) = true.
Proof. vm_compute. repeat split. Qed.
Example amf0_rt_number0 : fst (rt0 (TFloat 4614256650576692846)) = Ok (VNum 4614256650576692846).
Proof. vm_compute. repeat split. Qed.
Example amf0_rt_number1 : fst (rt0 (TFloat 4728132019073056768)) = Ok (VNum 4728132019073056768).
Proof. vm_compute. repeat split. Qed.
Example amf0_rt_number2 : fst (rt0 (TFloat 13853382076266027418)) = Ok (VNum 13853382076266027418).
Proof. vm_compute. repeat split. Qed.
Example amf0_rt_bool : fst (rt0 (TBool true)) = Ok (VBool true) /\ fst (rt0 (TBool false)) = Ok (VBool false) /\ fst (rt0 TNil) = Ok VNil.
Proof. vm_compute. repeat split. Qed.
Example amf0_rt_object : rt0 (TObj [(str "dog", TStr (str "alfie")); (str "coffee", TBool true); (str "drugs", TBool false); (str "pi", TFloat 4614256650576692846)])
  = (Ok (VObj 0), [[(str "dog", VStr (str "alfie")); (str "coffee", VBool true); (str "drugs", VBool false); (str "pi", VNum 4614256650576692846)]]).
Proof. vm_compute. repeat split. Qed.
Example amf0_rt_array : fst (rt0 (TArr (map TFloat [4607182418800017408; 4611686018427387904; 4613937818241073152; 4616189618054758400; 4617315517961601024]))) = Ok (VArr (map VNum [4607182418800017408; 4611686018427387904; 4613937818241073152; 4616189618054758400; 4617315517961601024])).
Proof. vm_compute. repeat split. Qed.
Example amf0_real_case1 : let '(_, r) := decode_batch0 (fresh (bytes_buffer [2; 0; 7; 112; 117; 98; 108; 105; 115; 104; 0; 0; 0; 0; 0; 0; 0; 0; 0; 5; 2; 0; 9; 99; 97; 109; 115; 116; 114; 101; 97; 109; 2; 0; 4; 108; 105; 118; 101])) in
  r = ([VStr (str "publish"); VNum 0; VNil; VStr (str "camstream"); VStr (str "live")], Ok tt).
Proof. vm_compute. repeat split. Qed.
