(** SIP Parse over any io.Reader. Model/Sip.v has a bufio.Reader over a source that ends with io.EOF, as ParseBytes has it; here
    the source may end with any error, may return it together with its last bytes, and may return nothing many times in a row.
    Proofs/SipSrc.v shows that the two agree where both apply. *)
From Coq Require Import String.
From Verif Require Import Base.Go Base.IO Base.Text Model.Sip.
Import ListNotations. Local Open Scope list_scope. Local Open Scope Z_scope.

(** A source delivers its chunks, one Read never returning bytes of two of them, and then [c_err] for ever; with [c_with] the
    error comes with the last chunk. An empty chunk is a Read that returns 0, nil. *)
Record source := mkSrc { c_chunks : list bytes; c_err : err; c_with : bool }.
Definition src_get (n : Z) (s : source) : source * (bytes * option err) :=
  match c_chunks s with
  | [] => (s, ([], Some (c_err s)))
  | c :: cs =>
      if len c <=? n then (mkSrc cs (c_err s) (c_with s), (c, match cs with [] => if c_with s then Some (c_err s) else None | _ => None end))
      else (mkSrc (drop c n :: cs) (c_err s) (c_with s), (take c n, None))
  end.

(** Go's bufio.Reader: b.buf[b.r:b.w], b.err, b.rd, len(b.buf). *)
Record gbuf := mkG { gb_buf : bytes; gb_err : option err; gb_src : source; gb_size : Z }.
Definition greader (cs : list bytes) (e : err) (w : bool) (size : Z) : gbuf := mkG [] None (mkSrc cs e w) size.
(** bufio fill: at most k (100) Reads that return nothing, then io.ErrNoProgress. *)
Fixpoint fill (k : nat) (b : gbuf) : gbuf :=
  match k with
  | O => mkG (gb_buf b) (Some EOther) (gb_src b) (gb_size b)
  | S k' =>
      let '(s, (d, e)) := src_get (gb_size b - len (gb_buf b)) (gb_src b) in
      match e with
      | Some e => mkG (gb_buf b ++ d) (Some e) s (gb_size b)
      | None =>
          match d with
          | [] => fill k' (mkG (gb_buf b) None s (gb_size b))
          | _ => mkG (gb_buf b ++ d) None s (gb_size b)
          end
      end
  end.
(** bufio ReadSlice('\n'); bufio.ErrBufferFull is [EOther]. *)
Fixpoint gread_slice (fuel : nat) (b : gbuf) : gbuf * res (bytes * option err) :=
  match fuel with
  | O => (b, OutOfFuel)
  | S f =>
      match cut 10 (gb_buf b) with
      | Some (l, rest) => (mkG rest (gb_err b) (gb_src b) (gb_size b), Ok (l ++ [10], None))
      | None =>
          match gb_err b with
          | Some e => (mkG [] None (gb_src b) (gb_size b), Ok (gb_buf b, Some e))
          | None =>
              if len (gb_buf b) >=? gb_size b then (mkG [] None (gb_src b) (gb_size b), Ok (gb_buf b, Some EOther))
              else gread_slice f (fill 100 b)
          end
      end
  end.
(** bufio Read(buf) with len(buf) = n > 0. *)
Definition gread (n : Z) (b : gbuf) : gbuf * (bytes * option err) :=
  match gb_buf b with
  | [] =>
      match gb_err b with
      | Some e => (mkG [] None (gb_src b) (gb_size b), ([], Some e))
      | None =>
          if n >=? gb_size b then
            let '(s, (d, e)) := src_get n (gb_src b) in (mkG [] None s (gb_size b), (d, e))
          else
            match src_get (gb_size b) (gb_src b) with
            | (s, ([], e)) => (mkG [] None s (gb_size b), ([], e))
            | (s, (d, e)) => (mkG (drop d n) e s (gb_size b), (take d n, None))
            end
      end
  | d => (mkG (drop d n) (gb_err b) (gb_src b) (gb_size b), (take d n, None))
  end.
(** A bound on the calls left: bytes and Reads. *)
Definition gb_rest (b : gbuf) : bytes := gb_buf b ++ concat (c_chunks (gb_src b)).
Definition gfuel (b : gbuf) : nat := 3 + length (gb_rest b) + length (c_chunks (gb_src b)).

(** sips/sips.go:78-101 fillBody, the loop: io.EOF ends the body, with or without bytes; any other error is returned. *)
Fixpoint gbody_loop (fuel : nat) (size : Z) (body : bytes) (b : gbuf) : gbuf * res bytes :=
  if size <=? 0 then (b, Ok body) else
  match fuel with
  | O => (b, OutOfFuel)
  | S f =>
      match gread 4096 b with
      | (b', (d, Some EEof)) => (b', Ok (body ++ d))
      | (b', (d, Some e)) => (b', Err e)
      | (b', (d, None)) => gbody_loop f (size - len d) (body ++ d) b'
      end
  end.
(** sips/sips.go:68-104 fillBody. *)
Definition gfill_body (h : header) (supplement : Z) (b : gbuf) : gbuf * res bytes :=
  match get_content_length h with
  | Ok size => gbody_loop (gfuel b) (size - supplement) [] b
  | _ => (b, Err EOther)
  end.
(** sips/sips.go:114-155 Parse, the line loop: an error other than io.EOF is returned, whatever line came with it. *)
Fixpoint gparse_lines (fuel : nat) (b : gbuf) (count : Z) (offset : Z) (buffer : bytes) (s : sip)
  : gbuf * (sip * res (Z * bytes)) :=
  match fuel with
  | O => (b, (s, OutOfFuel))
  | S f =>
      match gread_slice (gfuel b) b with
      | (b', Ok (line, e)) =>
          let go :=
            let buffer := buffer ++ line in
            let offset := offset + len line in
            let trim := trim_crlf line in
            if len trim =? 0 then (b', (s, Ok (offset - len line, buffer))) else
            match (if count =? 0 then parse_first_line trim s else parse_header trim s) with
            | (s', Ok _) => gparse_lines f b' (count + 1) offset buffer s'
            | (s', Err e) => (b', (s', Err e))
            | (s', Panic) => (b', (s', Panic))
            | (s', OutOfFuel) => (b', (s', OutOfFuel))
            end in
          match e with
          | None => go
          | Some EEof => if len line =? 0 then (b', (s, Ok (offset, buffer))) else go
          | Some e => (b', (s, Err e))
          end
      | (b', Err e) => (b', (s, Err e))
      | (b', Panic) => (b', (s, Panic))
      | (b', OutOfFuel) => (b', (s, OutOfFuel))
      end
  end.
(** sips/sips.go:107-171 Parse. *)
Definition gparse (b : gbuf) (s : sip) : gbuf * (sip * res unit) :=
  match gparse_lines (gfuel b) b 0 0 [] s with
  | (b, (s, Ok (offset, buffer))) =>
      match fill_header s with
      | (s, Ok _) =>
          match gfill_body (s_headers s) (len buffer - offset) b with
          | (b, Ok body) =>
              let buffer := buffer ++ body in
              (b, (with_layer (take buffer offset) (drop buffer offset) s, Ok tt))
          | (b, Err e) => (b, (s, Err e))
          | (b, Panic) => (b, (s, Panic))
          | (b, OutOfFuel) => (b, (s, OutOfFuel))
          end
      | (s, r) => (b, (s, r))
      end
  | (b, (s, Err e)) => (b, (s, Err e))
  | (b, (s, Panic)) => (b, (s, Panic))
  | (b, (s, OutOfFuel)) => (b, (s, OutOfFuel))
  end.
