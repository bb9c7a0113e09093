(** The Go string functions the sips package uses: UTF-8 decoding, strings.ToUpper/ToLower/TrimSpace,
    bytes.Trim, strings.Index/SplitN, strconv.Itoa/Atoi/Quote, and Go maps with string keys.

    Nothing here models a function of /repo; this file fixes the meaning of the standard library. *)
From Verif Require Import Base.Go.

(** * UTF-8 (unicode/utf8, and `for _, r := range s`)
    The string is cut into the sequences DecodeRune sees; each comes with its rune. An invalid byte is a
    sequence of its own, of rune U+FFFD. *)
Definition rune_error : Z := 65533.
Definition btw (a x b : Z) : bool := (a <=? x) && (x <=? b).
(** Is b1 an acceptable second byte after b0 (b0 >= 0xE0)? *)
Definition second_ok (b0 b1 : Z) : bool :=
  if b0 =? 224 then btw 160 b1 191
  else if b0 =? 237 then btw 128 b1 159
  else if b0 =? 240 then btw 144 b1 191
  else if b0 =? 244 then btw 128 b1 143
  else btw 128 b1 191.
Fixpoint decode_runes (s : bytes) : list (Z * bytes) :=
  match s with
  | [] => []
  | b0 :: t =>
      if b0 <? 128 then (b0, [b0]) :: decode_runes t
      else if btw 194 b0 223 then
        match t with
        | b1 :: t1 =>
            if btw 128 b1 191 then ((b0 - 192) * 64 + (b1 - 128), [b0; b1]) :: decode_runes t1
            else (rune_error, [b0]) :: decode_runes t
        | [] => [(rune_error, [b0])]
        end
      else if btw 224 b0 239 then
        match t with
        | b1 :: (b2 :: t2) as t1 =>
            if second_ok b0 b1 && btw 128 b2 191
            then ((b0 - 224) * 4096 + (b1 - 128) * 64 + (b2 - 128), [b0; b1; b2]) :: decode_runes t2
            else (rune_error, [b0]) :: decode_runes t
        | _ => (rune_error, [b0]) :: decode_runes t
        end
      else if btw 240 b0 244 then
        match t with
        | b1 :: b2 :: b3 :: t3 =>
            if second_ok b0 b1 && btw 128 b2 191 && btw 128 b3 191
            then ((b0 - 240) * 262144 + (b1 - 128) * 4096 + (b2 - 128) * 64 + (b3 - 128), [b0; b1; b2; b3])
                 :: decode_runes t3
            else (rune_error, [b0]) :: decode_runes t
        | _ => (rune_error, [b0]) :: decode_runes t
        end
      else (rune_error, [b0]) :: decode_runes t
  end.
Definition runes (s : bytes) : list Z := map fst (decode_runes s).
(** utf8.EncodeRune / Buffer.WriteRune, for the runes decoding can produce. *)
Definition encode_rune (r : Z) : bytes :=
  if r <? 128 then [r]
  else if r <? 2048 then [192 + r / 64; 128 + r mod 64]
  else if r <? 65536 then [224 + r / 4096; 128 + r / 64 mod 64; 128 + r mod 64]
  else [240 + r / 262144; 128 + r / 4096 mod 64; 128 + r / 64 mod 64; 128 + r mod 64].
Definition encode_runes (l : list Z) : bytes := flat_map encode_rune l.

(** * Case (strings.ToUpper, strings.ToLower)
    Simplification: of the non-ASCII runes only the four whose case partner is ASCII are mapped (U+0131, U+017F
    by ToUpper, U+0130, U+212A by ToLower); Go maps the other cased non-ASCII runes to other non-ASCII runes,
    here they stay. An invalid byte becomes U+FFFD, as in Go. *)
Definition upper_rune (r : Z) : Z :=
  if btw 97 r 122 then r - 32 else if r =? 305 then 73 else if r =? 383 then 83 else r.
Definition lower_rune (r : Z) : Z :=
  if btw 65 r 90 then r + 32 else if r =? 304 then 105 else if r =? 8490 then 107 else r.
Definition to_upper (s : bytes) : bytes := encode_runes (map upper_rune (runes s)).
Definition to_lower (s : bytes) : bytes := encode_runes (map lower_rune (runes s)).

(** * Trimming *)
Fixpoint drop_while {A} (p : A -> bool) (l : list A) : list A :=
  match l with
  | [] => []
  | x :: l' => if p x then drop_while p l' else l
  end.
Definition trim_by {A} (p : A -> bool) (l : list A) : list A := rev (drop_while p (rev (drop_while p l))).
(** unicode.IsSpace. *)
Definition is_space (r : Z) : bool :=
  btw 9 r 13 || (r =? 32) || (r =? 133) || (r =? 160) || (r =? 5760) || btw 8192 r 8202
  || (r =? 8232) || (r =? 8233) || (r =? 8239) || (r =? 8287) || (r =? 12288).
(** strings.TrimSpace, bytes.TrimSpace. *)
Definition trim_space (s : bytes) : bytes :=
  flat_map snd (trim_by (fun p => is_space (fst p)) (decode_runes s)).
(** bytes.Trim(s, "\r\n") and bytes.Trim(s, " "). *)
Definition trim_crlf (s : bytes) : bytes := trim_by (fun c => (c =? 13) || (c =? 10)) s.
Definition trim_sp (s : bytes) : bytes := trim_by (fun c => c =? 32) s.

(** * Searching and splitting *)
(** i := strings.Index(s, c) for a one-byte c, with the two parts s[:i] and s[i+1:] the callers take. *)
Fixpoint cut (c : Z) (s : bytes) : option (bytes * bytes) :=
  match s with
  | [] => None
  | x :: t => if x =? c then Some ([], t)
              else match cut c t with Some (a, b) => Some (x :: a, b) | None => None end
  end.
(** strings.SplitN(s, " ", 3). *)
Definition split3 (s : bytes) : list bytes :=
  match cut 32 s with
  | None => [s]
  | Some (a, t) => match cut 32 t with None => [a; t] | Some (b, c) => [a; b; c] end
  end.
(** strings.HasPrefix. *)
Definition has_prefix (s p : bytes) : bool := bytes_eqb (firstn (length p) s) p.

(** * Numbers *)
Fixpoint dec_digits (fuel : nat) (n : Z) (acc : bytes) : bytes :=
  match fuel with
  | O => acc
  | S f => let acc' := (48 + n mod 10) :: acc in
           if n / 10 =? 0 then acc' else dec_digits f (n / 10) acc'
  end.
(** strconv.Itoa. *)
Definition itoa (n : Z) : bytes :=
  if n <? 0 then 45 :: dec_digits (S (Z.to_nat (Z.log2 (- n)))) (- n) []
  else dec_digits (S (Z.to_nat (Z.log2 n))) n [].
(** strconv.Atoi: an optional sign and at least one digit; int is 64 bits wide. *)
Definition is_digit (c : Z) : bool := btw 48 c 57.
Definition dec_val (s : bytes) : Z := fold_left (fun a c => a * 10 + (c - 48)) s 0.
Definition atoi (s : bytes) : res Z :=
  let '(neg, d) := match s with
                   | c :: t => if c =? 45 then (true, t) else if c =? 43 then (false, t) else (false, s)
                   | [] => (false, s)
                   end in
  match d with
  | [] => Err EOther
  | _ => if forallb is_digit d
         then let n := if neg : bool then - dec_val d else dec_val d in
              if (- 9223372036854775808 <=? n) && (n <=? 9223372036854775807) then Ok n else Err EOther
         else Err EOther
  end.

(** strconv.Quote. Simplification: every valid non-ASCII rune counts as printable. U+007F is written \x7f as by recent Go
    releases (earlier ones: \u007f); no theorem depends on it. *)
Definition hex (d : Z) : Z := if d <? 10 then 48 + d else 87 + d.
Definition quote_rune (p : Z * bytes) : bytes :=
  let '(r, src) := p in
  if (r =? 34) || (r =? 92) then [92; r]
  else if r <? 128 then
    if btw 32 r 126 then [r]
    else if r =? 7 then [92; 97] else if r =? 8 then [92; 98] else if r =? 12 then [92; 102]
    else if r =? 10 then [92; 110] else if r =? 13 then [92; 114] else if r =? 9 then [92; 116]
    else if r =? 11 then [92; 118]
    else [92; 120; hex (r / 16); hex (r mod 16)]
  else match src with
       | [b] => [92; 120; hex (b / 16); hex (b mod 16)]
       | _ => src
       end.
Definition quote (s : bytes) : bytes := [34] ++ flat_map quote_rune (decode_runes s) ++ [34].

(** * Go maps with string keys: fields with distinct keys, in the order in which `range` visits them. *)
Definition smap (A : Type) := list (bytes * A).
Fixpoint mget {A} (k : bytes) (m : smap A) : option A :=
  match m with
  | [] => None
  | (k', v) :: m' => if bytes_eqb k k' then Some v else mget k m'
  end.
(** m[k] = v. *)
Fixpoint mset {A} (k : bytes) (v : A) (m : smap A) : smap A :=
  match m with
  | [] => [(k, v)]
  | (k', v') :: m' => if bytes_eqb k k' then (k, v) :: m' else (k', v') :: mset k v m'
  end.
