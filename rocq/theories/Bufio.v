(** Model of the buffered reader DecodeResponse reads from: an io.Reader that
    hands out its bytes in pieces, the bufio.Reader of 1024 bytes around it
    (response.go:287), and DecodeResponse on top of the two. The functions of
    package bufio are those of Go's standard library (src/bufio/bufio.go), which
    /repo calls in response.go:39, 45, 190 and 287 and hands to the decoder in
    line 301. *)
From Verif Require Import GoStr GoTime Types Enums EnumTables Records Common Messages Codec Schema
  Document Xml Headers Leaves Wire.

(** An io.Reader: what Read returns for a slice of a given length, and the
    reader after it. [Piece b failed r]: the bytes [b], an error if [failed], io.EOF
    among them. Which error it is makes no difference to DecodeResponse, and its
    text is not modelled. *)
CoInductive reader : Type :=
  Reader (read : nat -> piece)
with piece : Type :=
  Piece (bytes : str) (failed : bool) (rest : reader).

Definition read (r : reader) (room : nat) : piece := match r with Reader f => f room end.

(** bufio.Reader: buf[r:w], r, whether an error is pending, the last byte read
    and the reader underneath; len(buf) is [window]. *)
Record buffered : Type := mkBuffered
  { b_data : str; b_start : nat; b_err : bool; b_last : option ascii; b_from : reader }.

(** bufio.NewReaderSize(reader, 1024), response.go:287, of a reader which is not
    itself a *bufio.Reader (one that is large enough would be used as it is). *)
Definition new_reader (r : reader) : buffered := mkBuffered [] 0 false None r.

(** The loop of fill: at most maxConsecutiveEmptyReads reads that return neither
    a byte nor an error, then io.ErrNoProgress. *)
Fixpoint attempts (n : nat) (room : nat) (r : reader) : str * bool * reader :=
  match n with
  | O => ([], true, r)
  | S n =>
      match read r room with
      | Piece b failed r' =>
          if failed then (b, true, r')
          else match b with [] => attempts n room r' | _ => (b, false, r') end
      end
  end.

(** (b *Reader) fill. [None] stands for the panic "tried to fill full buffer". *)
Definition fill (b : buffered) : option buffered :=
  if Nat.leb window (length (b_data b)) then None
  else
    match attempts 100 (window - length (b_data b)) (b_from b) with
    | (d, failed, r) => Some (mkBuffered (b_data b ++ d) 0 failed (b_last b) r)
    end.

(** The loop of Peek. Every round adds a byte or sets the error, so that the
    number of rounds given here is never used up; [None] would say that it is. *)
Fixpoint peek_loop (rounds n : nat) (b : buffered) : option buffered :=
  match rounds with
  | O => None
  | S rounds =>
      if Nat.ltb (length (b_data b)) n && Nat.ltb (length (b_data b)) window && negb (b_err b)
      then b' <- fill b ;; peek_loop rounds n b'
      else Some b
  end.

(** (b *Reader) Peek, for n <= 1024; the error is ignored at response.go:190. A
    pending error is taken out of the reader when fewer than n bytes are there. *)
Definition peek (n : nat) (b : buffered) : option (str * buffered) :=
  b <- peek_loop (S (S window)) n (mkBuffered (b_data b) (b_start b) (b_err b) None (b_from b)) ;;
  Some (firstn n (b_data b),
        mkBuffered (b_data b) (b_start b)
          (if Nat.ltb (length (b_data b)) n then false else b_err b) (b_last b) (b_from b)).

(** The last byte of a line, if any: the end of ReadSlice. *)
Definition last_byte (line : str) (before : option ascii) : option ascii :=
  match rev line with c :: _ => Some c | [] => before end.

(** The loop of ReadSlice; [s] is where the search starts. The result is the
    line, whether there is an error, and the reader. *)
Fixpoint slice_loop (rounds s : nat) (delim : ascii) (b : buffered) : option (str * bool * buffered) :=
  match rounds with
  | O => None
  | S rounds =>
      match index_of [delim] (skipn s (b_data b)) with
      | Some i =>
          let line := firstn (S (i + s)) (b_data b) in
          Some (line, false,
                mkBuffered (skipn (S (i + s)) (b_data b)) (b_start b + S (i + s)) (b_err b)
                  (last_byte line (b_last b)) (b_from b))
      | None =>
          if b_err b then
            Some (b_data b, true,
                  mkBuffered [] (b_start b + length (b_data b)) false
                    (last_byte (b_data b) (b_last b)) (b_from b))
          else if Nat.leb window (length (b_data b)) then
            Some (b_data b, true,
                  mkBuffered [] (b_start b + length (b_data b)) (b_err b)
                    (last_byte (b_data b) (b_last b)) (b_from b))
          else b' <- fill b ;; slice_loop rounds (length (b_data b)) delim b'
      end
  end.

(** (b *Reader) ReadSlice. *)
Definition read_slice (delim : ascii) (b : buffered) : option (str * bool * buffered) :=
  slice_loop (S (S window)) 0 delim b.

(** (b *Reader) UnreadByte; the flag tells whether it fails. *)
Definition unread_byte (b : buffered) : bool * buffered :=
  match b_last b with
  | None => (true, b)
  | Some c =>
      match b_start b, b_data b with
      | O, _ :: _ => (true, b)
      | O, [] => (false, mkBuffered [c] 0 (b_err b) None (b_from b))
      | S r, d => (false, mkBuffered (c :: d) r (b_err b) None (b_from b))
      end
  end.

(** (b *Reader) ReadByte: the byte, or nothing if there is an error. One call of
    fill brings a byte or an error, so the loop is never run a third time. *)
Fixpoint byte_loop (rounds : nat) (b : buffered) : option (option ascii * buffered) :=
  match rounds with
  | O => None
  | S rounds =>
      match b_data b with
      | c :: d => Some (Some c, mkBuffered d (S (b_start b)) (b_err b) (Some c) (b_from b))
      | [] =>
          if b_err b then Some (None, mkBuffered [] (b_start b) false (b_last b) (b_from b))
          else b' <- fill b ;; byte_loop rounds b'
      end
  end.

Definition read_byte (b : buffered) : option (option ascii * buffered) := byte_loop 3 b.

(** What the decoder reads from r, response.go:301: xml.NewDecoder uses the
    ReadByte of a reader that has one, and reads no more after an error
    (encoding/xml, getc). The decoder stops reading once it has what it wants;
    here it reads everything, which makes no difference to what it finds. *)
Fixpoint drain (fuel : nat) (b : buffered) : option str :=
  match fuel with
  | O => None
  | S fuel =>
      a <- read_byte b ;;
      match fst a with
      | None => Some []
      | Some c => s <- drain fuel (snd a) ;; Some (c :: s)
      end
  end.

(** guessVersion, response.go:189-204, on what Peek returns: true for XML. *)
Definition guess_peeked (b : str) : bool :=
  match index_of (bs "OFXHEADER:") b, index_of (bs "OFXHEADER=") b with
  | None, _ => true
  | Some _, None => false
  | Some sgml, Some xml => Nat.leb xml sgml
  end.

(** readSGMLHeaders, response.go:38-109, on the reader: the version and the
    reader after it; the inner [None] is an error. *)
Definition sgml_headers_from (b : buffered) : option (option (N * buffered)) :=
  a <- read_slice "<" b ;;
  match a with
  | (_, true, _) => Some None
  | (line, false, b1) =>
      match unread_byte b1 with
      | (true, _) => Some None
      | (false, b2) =>
          Some (values <- match_entries sgml_entries line ;;
                v <- check_sgml values ;;
                Some (v, b2))
      end
  end.

(** DecodeResponse, response.go:284-377, on a reader. The outer [None] is a
    panic of the buffered reader, or says that the fuel has been used up; the
    inner one is an error. *)
Definition decode_from (fuel : nat) (e : env) (r : reader) : option (option Response) :=
  p <- peek window (new_reader r) ;;
  if guess_peeked (fst p) then
    s <- drain fuel (snd p) ;;
    Some (h <- read_xml_headers (lex true s) ;;
          n <- read_ofx true [] (snd h) ;;
          decode_ofx e (fst h) n)
  else
    h <- sgml_headers_from (snd p) ;;
    match h with
    | None => Some None
    | Some (v, b) =>
        s <- drain fuel b ;;
        Some (n <- read_ofx false ofx_leaf_elements (lex false s) ;; decode_ofx e v n)
    end.

(** ParseResponse, response.go:273-280, on a reader. *)
Definition parse_from (fuel : nat) (e : env) (r : reader) : option (option Response * option goerr) :=
  d <- decode_from fuel e r ;;
  match d with
  | None => Some (None, Some decoding_error)
  | Some x => Some (Some x, response_valid x)
  end.
