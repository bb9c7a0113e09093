(** AMF3 values with object references: the layouts of Spec/Amf3Doc.v together with the table of complex values that
    references of markers 7 to 12 index ("AMF 3", section 2.2). The table is kept in two ways.

    [Adobe]: the specification. Every date, XML text, byte array, array and object takes the next place when it begins, and
    a reference denotes the value in that place. (Only references to values that are complete: a value that contains itself
    is not a finite tree. Without dynamic and externalizable objects, and with integers below 2^28, as in Spec/Amf3Doc.v.)

    [Library]: what EnDecAMF3 does. Empty XML texts and byte arrays take no place; the place of an array is taken by an empty
    array and the place of an object by null, which is what references to them denote; an object reference may denote a value
    of any kind. The class bits are ignored and integers are not limited. The input may end inside the last XML text or byte array,
    the missing bytes being read as zeros.

    [Common]: the layouts on which the two agree. *)
From Verif Require Import Base.Go Base.Float64 Model.AmfTypes Spec.Amf Spec.AmfDoc Spec.Amf3Doc.

Inductive reading := Adobe | Library | Common.
Definition loose (r : reading) : bool := match r with Library => true | _ => false end.

(** The tables of strings and classes, and the places. An empty place is a value that has begun and has no meaning yet. *)
Record world := mkWorld { w_tables : tables; w_places : list (option pval) }.
Definition with_tables (T : tables) (W : world) : world := mkWorld T (w_places W).
Definition place (o : option pval) (W : world) : world := mkWorld (w_tables W) (w_places W ++ [o]).
(** The place taken when an array or object begins, and what becomes of it when the value is complete. *)
Definition begun (r : reading) (p : pval) (W : world) : world := place (match r with Library => Some p | _ => None end) W.
Definition completed (r : reading) (i : nat) (p : pval) (W : world) : world :=
  match r with
  | Adobe => mkWorld (w_tables W) (firstn i (w_places W) ++ Some p :: skipn (S i) (w_places W))
  | _ => W
  end.
(** The place of an XML text or byte array s. *)
Definition entered (r : reading) (s : bytes) (p : pval) (W : world) : world :=
  match r, s with Library, [] => W | _, _ => place (Some p) W end.
(** How many of its last bytes may be missing. *)
Definition may_miss (r : reading) (s : bytes) (c : nat) : Prop :=
  match r with Adobe => c = 0%nat | Library => c = 0%nat \/ (c < length s)%nat | Common => c = 0%nat /\ s <> [] end.
(** What a reference with marker m may denote. *)
Definition refers (r : reading) (m : Z) (p : pval) : Prop :=
  (m = 7 \/ m = 11) /\ (exists s, p = PStr s) \/ m = 8 /\ (exists t, p = PTime t) \/
  m = 9 /\ (exists l fs, p = PEcma l fs) \/ m = 10 /\ (r = Library \/ exists fs, p = PObj fs) \/
  m = 12 /\ (exists s, p = PBytes s).

(** [value3r r W b c p W']: b is a layout of p from world W, the last c bytes of which are missing in the input. *)
Inductive value3r (r : reading) : world -> bytes -> nat -> pval -> world -> Prop :=
| vr3_undefined W : value3r r W [0] 0 PNil W
| vr3_null W : value3r r W [1] 0 PNil W
| vr3_false W : value3r r W [2] 0 (PBool false) W
| vr3_true W : value3r r W [3] 0 (PBool true) W
| vr3_integer W n b : n < 2 ^ 28 \/ r = Library -> u29 n b -> value3r r W (4 :: b) 0 (PU32 n) W
| vr3_double W bits : 0 <= bits < 2 ^ 64 -> value3r r W (5 :: be64 bits) 0 (PNum bits) W
| vr3_string W b s st : utf8vr (t_strings (w_tables W)) b s st ->
    value3r r W (6 :: b) 0 (PStr s) (with_tables (with_strings st (w_tables W)) W)
| vr3_xml W m b s c : m = 7 \/ m = 11 -> u29 (2 * len s + 1) b -> may_miss r s c ->
    value3r r W (m :: b ++ s) c (PStr s) (entered r s (PStr s) W)
| vr3_date W k b bits p : u29 (2 * k + 1) b -> 0 <= bits < 2 ^ 64 -> p = PTime (f64_to_i64 (f64_div_c bits 1000)) ->
    value3r r W (8 :: b ++ be64 bits) 0 p (place (Some p) W)
| vr3_array W b bk assoc W1 bd c dense W2 p : u29 (2 * len dense + 1) b -> p = PEcma dense (members assoc) ->
    assoc3r r (begun r (PEcma [] []) W) bk assoc W1 -> values3r r W1 bd c dense W2 ->
    value3r r W (9 :: b ++ bk ++ bd) c p (completed r (length (w_places W)) p W2)
| vr3_object W b ty props T1 bv c vs W2 p : traits3 (loose r) (w_tables W) b (ty, props) T1 -> p = PObj (members (combine props vs)) ->
    values3r r (begun r PNil (with_tables T1 W)) bv c vs W2 -> length vs = length props ->
    value3r r W (10 :: b ++ bv) c p (completed r (length (w_places W)) p W2)
| vr3_bytes W b s c : u29 (2 * len s + 1) b -> may_miss r s c ->
    value3r r W (12 :: b ++ s) c (PBytes s) (entered r s (PBytes s) W)
| vr3_reference W m i b p : u29 (2 * Z.of_nat i) b -> nth_error (w_places W) i = Some (Some p) -> refers r m p ->
    value3r r W (m :: b) 0 p W
with values3r (r : reading) : world -> bytes -> nat -> list pval -> world -> Prop :=
| vsr3_nil W : values3r r W [] 0 [] W
| vsr3_cons W b c1 p W1 bs c2 ps W2 : value3r r W b c1 p W1 -> values3r r W1 bs c2 ps W2 -> c1 = 0%nat \/ bs = [] ->
    values3r r W (b ++ bs) (c1 + c2) (p :: ps) W2
(** The associative part of an array: names and values, closed by the empty name. *)
with assoc3r (r : reading) : world -> bytes -> list (bytes * pval) -> world -> Prop :=
| asr3_nil W b st : utf8vr (t_strings (w_tables W)) b [] st -> assoc3r r W b [] (with_tables (with_strings st (w_tables W)) W)
| asr3_cons W bk k st bv p W1 bs fs W2 : utf8vr (t_strings (w_tables W)) bk k st -> k <> [] ->
    value3r r (with_tables (with_strings st (w_tables W)) W) bv 0 p W1 -> assoc3r r W1 bs fs W2 ->
    assoc3r r W (bk ++ bv ++ bs) ((k, p) :: fs) W2.

(** What EnDecAMF3 keeps of a value in its own table of references. *)
Inductive holds : option pval -> value -> Prop :=
| holds_str s : holds (Some (PStr s)) (VStr s)
| holds_time t : holds (Some (PTime t)) (VTime t)
| holds_bytes s : holds (Some (PBytes s)) (VBytes s)
| holds_null : holds (Some PNil) VNil
| holds_array : holds (Some (PEcma [] [])) (VEcma [] None).
(** The decoder's tables are those of the world W. *)
Definition knows (W : world) (d : dstate) : Prop :=
  d_str3 d = t_strings (w_tables W) /\
  d_trait3 d = map (fun c => mkTrait (fst c) false false (snd c)) (t_classes (w_tables W)) /\
  Forall2 holds (w_places W) (d_obj3 d).
Definition new_world : world := mkWorld (mkTables [] []) [].
(** The tables are the same and every filled place of W has the same content in A. *)
Definition below (W A : world) : Prop := w_tables W = w_tables A /\ Forall2 (fun a b => a = None \/ a = b) (w_places W) (w_places A).
