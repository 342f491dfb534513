(** Model of /repo/request.go and /repo/response.go on the level of bytes:
    Marshal, DecodeResponse and ParseResponse. *)
From Coq Require Import QArith.
From Verif Require Import GoStr GoTime Types Enums EnumTables Records Common Messages Codec Schema
  Document Xml Headers Leaves.
Close Scope Q_scope.

Definition header_or_nothing (v : N) (crlf : bool) : str :=
  match write_header v crlf with Some h => h | None => [] end.

(** The Encoder of Request.Marshal, request.go:86-96. *)
Definition request_style (q : Request) : style :=
  mkStyle (rq_indent q) (rq_cr q)
    (if (rq_version q <? OfxVersion200)%N then ofx_leaf_elements else []).

(** Request.Marshal, request.go:80-151: the bytes and the request as it is after
    the call. The error of writeHeader is ignored (line 84). *)
Definition request_marshal (q : Request) : option (str * Request) :=
  t <- request_tree q ;;
  Some (header_or_nothing (rq_version q) (rq_cr q) ++ print (request_style q) true 0 (fst t), snd t).

(** Response.Marshal, response.go:414-476. *)
Definition response_marshal (r : Response) : option str :=
  t <- response_tree r ;;
  Some (header_or_nothing (rs_version r) false ++ print (mkStyle true false []) true 0 t).

(** The OFX element, response.go:314-319 and the reading of the document up to
    its end. *)
Definition read_ofx (strict : bool) (leaves : list str) (ts : list token) : option node :=
  a <- next_token ts ;;
  match fst a with
  | TStart sp nm =>
      if str_eqb nm (bs "OFX") then read_element strict leaves (snd a) [(sp, nm, [])] else None
  | _ => None
  end.

(** The version and the element tree of a document, response.go:284-319. *)
Definition read_document (s : str) : option (N * node) :=
  if guess_xml s then
    h <- read_xml_headers (lex true s) ;;
    n <- read_ofx true [] (snd h) ;;
    Some (fst h, n)
  else
    h <- read_sgml_headers s ;;
    n <- read_ofx false ofx_leaf_elements (lex false (snd h)) ;;
    Some (fst h, n).

(** DecodeResponse, response.go:284-377, of a reader that delivers the bytes
    [s]. The elements are decoded while they are read, so a document with an
    error in a message and a syntax error after it fails for the first of the
    two; both are errors. *)
Definition decode_response (e : env) (s : str) : option Response :=
  d <- read_document s ;;
  decode_ofx e (fst d) (snd d).

(** ParseResponse, response.go:273-280: the response, if any, and the error, if
    any. [None] as first component means nil; the error then comes from
    DecodeResponse and its text is not modelled. *)
Definition decoding_error : goerr := EPlain (bs "DecodeResponse").

Definition parse_response (e : env) (s : str) : option Response * option goerr :=
  match decode_response e s with
  | None => (None, Some decoding_error)
  | Some r => (Some r, response_valid r)
  end.
