(** Model of /repo/request.go and /repo/response.go on the level of document
    trees: which elements Marshal writes and what DecodeResponse makes of them.
    The bytes are the subject of Headers.v, Xml.v and Wire.v. *)
From Coq Require Import QArith.
From Verif Require Import GoStr GoNum GoRat GoTime Types Enums EnumTables Records Common Messages Codec Schema.
Close Scope Q_scope.

(** The fourteen fields of type []Message that Request (request.go:19-32) and
    Response (response.go:22-35) have in common. *)
Record Slots := mkSlots {
  sl_signup : list Message;
  sl_bank : list Message;
  sl_creditcard : list Message;
  sl_loan : list Message;
  sl_invstmt : list Message;
  sl_interxfer : list Message;
  sl_wirexfer : list Message;
  sl_billpay : list Message;
  sl_email : list Message;
  sl_seclist : list Message;
  sl_presdir : list Message;
  sl_presdlv : list Message;
  sl_prof : list Message;
  sl_image : list Message
}.

Definition no_messages : Slots := mkSlots [] [] [] [] [] [] [] [] [] [] [] [] [] [].

(** request.go:15-36. *)
Record Request := mkRequest {
  rq_url : str;
  rq_version : N;
  rq_signon : SignonRequest;
  rq_slots : Slots;
  rq_indent : bool;
  rq_cr : bool
}.

(** response.go:19-36. *)
Record Response := mkResponse {
  rs_version : N;
  rs_signon : SignonResponse;
  rs_slots : Slots
}.

(** The table of message sets, request.go:118-136 and response.go:443-461:
    the slices with their types, in this order. *)
Definition set_table (s : Slots) (d : direction) : list (list Message * msgtype) :=
  [ (sl_signup s, (MSignup, d));
    (sl_bank s, (MBank, d));
    (sl_creditcard s, (MCreditCard, d));
    (sl_loan s, (MLoan, d));
    (sl_invstmt s, (MInvStmt, d));
    (sl_interxfer s, (MInterXfer, d));
    (sl_wirexfer s, (MWireXfer, d));
    (sl_billpay s, (MBillpay, d));
    (sl_email s, (MEmail, d));
    (sl_seclist s, (MSecList, d));
    (sl_presdir s, (MPresDir, d));
    (sl_presdlv s, (MPresDlv, d));
    (sl_prof s, (MProf, d));
    (sl_image s, (MImage, d)) ].

(** ** Encoding *)

(** Encoder.Encode of a pointer to a struct whose XMLName has a tag. *)
Definition encode_as (t : ty) (v : interp t) : option (list node) := marshal t false [] false v.

Definition encode_message (m : Message) : option (list node) :=
  match m with
  | MsgAcctInfoRequest r => encode_as AcctInfoRequest_ty (AcctInfoRequest_to r)
  | MsgStatementRequest r => encode_as StatementRequest_ty (StatementRequest_to r)
  | MsgCCStatementRequest r => encode_as CCStatementRequest_ty (CCStatementRequest_to r)
  | MsgInvStatementRequest r => encode_as InvStatementRequest_ty (InvStatementRequest_to r)
  | MsgSecListRequest r => encode_as SecListRequest_ty (SecListRequest_to r)
  | MsgProfileRequest r => encode_as ProfileRequest_ty (ProfileRequest_to r)
  | MsgAcctInfoResponse r => encode_as AcctInfoResponse_ty (AcctInfoResponse_to r)
  | MsgStatementResponse r => encode_as StatementResponse_ty (StatementResponse_to r)
  | MsgCCStatementResponse r => encode_as CCStatementResponse_ty (CCStatementResponse_to r)
  | MsgInvStatementResponse r => encode_as InvStatementResponse_ty (InvStatementResponse_to r)
  | MsgSecListResponse r => encode_as SecListResponse_ty (SecListResponse_to r)
  | MsgSecurityList r => encode_as SecurityList_ty (SecurityList_to r)
  | MsgProfileResponse r => encode_as ProfileResponse_ty (ProfileResponse_to r)
  end.

(** The loop of encodeMessageSet, request.go:45-55: test the type, validate
    (which may change the message), encode. The result also has the messages as
    they are after the call. *)
Fixpoint encode_messages (ms : list Message) (set : msgtype) (version : N) :
  option (list node * list Message) :=
  match ms with
  | [] => Some ([], [])
  | m :: ms' =>
      if negb (msgtype_eqb (message_type m) set) then None
      else
        match message_valid m version with
        | (_, Some _) => None
        | (m', None) =>
            a <- encode_message m' ;;
            r <- encode_messages ms' set version ;;
            Some (a ++ fst r, m' :: snd r)
        end
  end.

(** encodeMessageSet, request.go:38-62. *)
Definition encode_set (ms : list Message) (set : msgtype) (version : N) :
  option (list node * list Message) :=
  if null ms then Some ([], [])
  else
    r <- encode_messages ms set version ;;
    Some ([Elem (msgtype_string set) (fst r)], snd r).

(** The loop over the table of message sets. *)
Fixpoint encode_sets (tbl : list (list Message * msgtype)) (version : N) :
  option (list node * list (list Message)) :=
  match tbl with
  | [] => Some ([], [])
  | (ms, t) :: tbl' =>
      a <- encode_set ms t version ;;
      r <- encode_sets tbl' version ;;
      Some (fst a ++ fst r, snd a :: snd r)
  end.

Definition slots_of_list (l : list (list Message)) : Slots :=
  match l with
  | [a; b; c; d; e; f; g; h; i; j; k; m; n; o] => mkSlots a b c d e f g h i j k m n o
  | _ => no_messages
  end.

(** Request.Marshal, request.go:80-151, without the header: the OFX element and
    the request as it is after the call. The case of an error says nothing about
    the request left behind. *)
Definition request_tree (q : Request) : option (node * Request) :=
  match signon_request_valid (rq_signon q) with
  | (_, Some _) => None
  | (sn, None) =>
      s <- encode_as SignonRequest_ty (SignonRequest_to sn) ;;
      r <- encode_sets (set_table (rq_slots q) Rq) (rq_version q) ;;
      Some (Elem (bs "OFX") (Elem (msgtype_string (MSignon, Rq)) s :: fst r),
            mkRequest (rq_url q) (rq_version q) sn (slots_of_list (snd r)) (rq_indent q) (rq_cr q))
  end.

(** Response.Marshal, response.go:414-476, without the header. *)
Definition response_tree (r : Response) : option node :=
  match signon_response_valid (rs_signon r) with
  | Some _ => None
  | None =>
      s <- encode_as SignonResponse_ty (SignonResponse_to (rs_signon r)) ;;
      x <- encode_sets (set_table (rs_slots r) Rs) (rs_version r) ;;
      Some (Elem (bs "OFX") (Elem (msgtype_string (MSignon, Rs)) s :: fst x))
  end.

(** ** Decoding *)

(** responseTypes, response.go:209-231, as a function of the message set; the
    names are those of message_name. Decoding starts from a new struct. *)
Definition decode_message (e : env) (set : msgset) (n : node) : option Message :=
  match n with
  | Elem nm _ =>
      let as_ {R} (t : ty) (of : interp t -> R) (mk : R -> Message) :=
        option_map (fun v => mk (of v)) (unmarshal e t n (zero t)) in
      match set with
      | MSignup =>
          if str_eqb nm (bs "ACCTINFOTRNRS") then as_ AcctInfoResponse_ty AcctInfoResponse_of MsgAcctInfoResponse
          else None
      | MBank =>
          if str_eqb nm (bs "STMTTRNRS") then as_ StatementResponse_ty StatementResponse_of MsgStatementResponse
          else None
      | MCreditCard =>
          if str_eqb nm (bs "CCSTMTTRNRS") then as_ CCStatementResponse_ty CCStatementResponse_of MsgCCStatementResponse
          else None
      | MInvStmt =>
          if str_eqb nm (bs "INVSTMTTRNRS") then as_ InvStatementResponse_ty InvStatementResponse_of MsgInvStatementResponse
          else None
      | MSecList =>
          if str_eqb nm (bs "SECLISTTRNRS") then as_ SecListResponse_ty SecListResponse_of MsgSecListResponse
          else if str_eqb nm (bs "SECLIST") then as_ SecurityList_ty SecurityList_of MsgSecurityList
          else None
      | MProf =>
          if str_eqb nm (bs "PROFTRNRS") then as_ ProfileResponse_ty ProfileResponse_of MsgProfileResponse
          else None
      | _ => None
      end
  | _ => None
  end.

(** The keys of messageSlices, response.go:342-357. *)
Definition response_set (nm : str) : option msgset :=
  find (fun s => str_eqb (msgtype_string (s, Rs)) nm)
    [MSignup; MBank; MCreditCard; MLoan; MInvStmt; MInterXfer; MWireXfer; MBillpay; MEmail;
     MSecList; MPresDir; MPresDlv; MProf; MImage].

Definition append_to (set : msgset) (ms : list Message) (s : Slots) : Slots :=
  let '(mkSlots a b c d e f g h i j k l n o) := s in
  match set with
  | MSignup => mkSlots (a ++ ms) b c d e f g h i j k l n o
  | MBank => mkSlots a (b ++ ms) c d e f g h i j k l n o
  | MCreditCard => mkSlots a b (c ++ ms) d e f g h i j k l n o
  | MLoan => mkSlots a b c (d ++ ms) e f g h i j k l n o
  | MInvStmt => mkSlots a b c d (e ++ ms) f g h i j k l n o
  | MInterXfer => mkSlots a b c d e (f ++ ms) g h i j k l n o
  | MWireXfer => mkSlots a b c d e f (g ++ ms) h i j k l n o
  | MBillpay => mkSlots a b c d e f g (h ++ ms) i j k l n o
  | MEmail => mkSlots a b c d e f g h (i ++ ms) j k l n o
  | MSecList => mkSlots a b c d e f g h i (j ++ ms) k l n o
  | MPresDir => mkSlots a b c d e f g h i j (k ++ ms) l n o
  | MPresDlv => mkSlots a b c d e f g h i j k (l ++ ms) n o
  | MProf => mkSlots a b c d e f g h i j k l (n ++ ms) o
  | MImage => mkSlots a b c d e f g h i j k l n (o ++ ms)
  | MSignon => s
  end.

(** The loop of decodeMessageSet, response.go:238-263, over the tokens that are
    not blank text. *)
Fixpoint decode_messages (e : env) (set : msgset) (kids : list node) : option (list Message) :=
  match kids with
  | [] => Some []
  | n :: kids' =>
      m <- decode_message e set n ;;
      ms <- decode_messages e set kids' ;;
      Some (m :: ms)
  end.

(** The loop of DecodeResponse, response.go:359-376. *)
Fixpoint decode_sets (e : env) (kids : list node) (s : Slots) : option Slots :=
  match kids with
  | [] => Some s
  | Elem nm sub :: kids' =>
      set <- response_set nm ;;
      ms <- decode_messages e set (solid sub) ;;
      decode_sets e kids' (append_to set ms s)
  | _ :: _ => None
  end.

(** decoder.Decode, response.go:327, skips everything before the first element
    of the signon message set. If there is none it takes the next element of the
    document, and the test of the end element at response.go:337 then fails. *)
Fixpoint first_elem (kids : list node) : option (node * list node) :=
  match kids with
  | [] => None
  | Elem nm k :: kids' => Some (Elem nm k, kids')
  | _ :: kids' => first_elem kids'
  end.

(** DecodeResponse, response.go:314-376, from the OFX element on. Whatever
    follows the OFX element is not read. *)
Definition decode_ofx (e : env) (version : N) (ofx : node) : option Response :=
  match ofx with
  | Elem nm kids =>
      if negb (str_eqb nm (bs "OFX")) then None
      else
        match solid kids with
        | Elem sn sk :: sets =>
            if negb (str_eqb sn (msgtype_string (MSignon, Rs))) then None
            else
              match first_elem sk with
              | Some (x, rest) =>
                  if negb (null (solid rest)) then None
                  else
                    v <- unmarshal e SignonResponse_ty x (zero SignonResponse_ty) ;;
                    s <- decode_sets e sets no_messages ;;
                    Some (mkResponse version (SignonResponse_of v) s)
              | None => None
              end
        | _ => None
        end
  | _ => None
  end.

(** ** Validation *)

(** Go errors: plain ones and errInvalid, response.go:480. *)
Inductive goerr :=
| EPlain (text : str)
| EInvalid (errs : list goerr).

(** errInvalid.AddErr, response.go:490-498. *)
Definition add_err (errs : list goerr) (err : option goerr) : list goerr :=
  match err with
  | None => errs
  | Some (EInvalid l) => errs ++ l
  | Some e => errs ++ [e]
  end.

(** errInvalid.ErrOrNil, response.go:500-505. *)
Definition err_or_nil (errs : list goerr) : option goerr :=
  if null errs then None else Some (EInvalid errs).

(** The errors of the Valid methods are made by errors.New and fmt.Errorf. *)
Definition plain_err (v : validity) : option goerr := option_map EPlain v.

(** Response.Valid, response.go:380-409. None of the responses' Valid methods
    changes its receiver. *)
Definition response_valid (r : Response) : option goerr :=
  let errs0 := add_err [] (plain_err (signon_response_valid (rs_signon r))) in
  let all := concat (map fst (set_table (rs_slots r) Rs)) in
  err_or_nil (fold_left (fun errs m => add_err errs (plain_err (snd (message_valid m (rs_version r))))) all errs0).
