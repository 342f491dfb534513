(** Model of DecodeResponse on the level of tokens: encoding/xml's Decoder with
    its stack of open elements, and the functions of /repo that read from it one
    token after the other. Codec, Document and Wire have the same on document
    trees; StreamFacts proves that the two agree.

    Every loop takes [fuel], a bound for the number of rounds; [None] is an error,
    or says that the fuel has been used up. *)
From Coq Require Import QArith.
From Verif Require Import GoStr GoTime Types Enums EnumTables Records Common Messages Codec Schema
  Document Xml Headers Leaves Wire.
Close Scope Q_scope.

(** ** Decoder *)

(** What Decoder.Token returns. Comments, directives and processing instructions
    are not told apart here; /repo does so only in the header. *)
Inductive xtoken :=
| XStart (name : str)
| XEnd (name : str)
| XChar (s : str)
| XOther.

(** Decoder.stk without the entries for name spaces: an open element, or the mark
    which pushEOF leaves. *)
Inductive entry :=
| EStart (space local : str)
| EEof.

(** The decoder: its settings, the raw tokens it has not used, and the stack.
    nextToken and toClose are a raw token that has to be looked at again; here it
    stays in front of the others. *)
Record dec := mkDec { dc_strict : bool; dc_leaves : list str; dc_raw : list token; dc_stk : list entry }.

(** Decoder.Token, with autoClose and popElement. *)
Definition token (d : dec) : option (xtoken * dec) :=
  let to raw stk := mkDec (dc_strict d) (dc_leaves d) raw stk in
  match dc_stk d, dc_raw d with
  | EEof :: _, _ => None
  | _, [] => None
  | [], t :: ts =>
      match t with
      | TStart sp nm => Some (XStart nm, to ts [EStart sp nm])
      | TEnd _ _ => None
      | TChar s => Some (XChar s, to ts [])
      | _ => Some (XOther, to ts [])
      end
  | EStart sp nm :: stk, t :: ts =>
      let leaf := negb (dc_strict d) && fold_member nm (dc_leaves d) in
      let again := Some (XEnd nm, to (t :: ts) stk) in
      match t with
      | TStart sp' nm' => if leaf then again else Some (XStart nm', to ts (EStart sp' nm' :: dc_stk d))
      | TEnd sp' nm' =>
          if str_eqb nm nm' then if str_eqb sp sp' then Some (XEnd nm, to ts stk) else None
          else if dc_strict d then None else again
      | TChar s => Some (XChar s, to ts (dc_stk d))
      | _ => if leaf then again else Some (XOther, to ts (dc_stk d))
      end
  end.

(** Decoder.pushEOF and popEOF: a mark below the innermost open element. *)
Definition push_eof (d : dec) : dec :=
  match dc_stk d with
  | EStart sp nm :: stk => mkDec (dc_strict d) (dc_leaves d) (dc_raw d) (EStart sp nm :: EEof :: stk)
  | _ => d
  end.

Definition pop_eof (d : dec) : option dec :=
  match dc_stk d with
  | EEof :: stk => Some (mkDec (dc_strict d) (dc_leaves d) (dc_raw d) stk)
  | _ => None
  end.

(** Decoder.unmarshalInterface: call an UnmarshalXML method, which cannot read
    past the end of its element and has to read it to the end. *)
Definition interface {A} (method : dec -> option (A * dec)) (d : dec) : option (A * dec) :=
  r <- method (push_eof d) ;;
  d' <- pop_eof (snd r) ;;
  Some (fst r, d').

(** Decoder.Skip. *)
Fixpoint skip (fuel : nat) (d : dec) : option dec :=
  match fuel with
  | O => None
  | S fuel =>
      r <- token d ;;
      match fst r with
      | XStart _ => d' <- skip fuel (snd r) ;; skip fuel d'
      | XEnd _ => Some (snd r)
      | _ => skip fuel (snd r)
      end
  end.

(** The loop of Decoder.unmarshal for a string: the text directly inside the
    element. *)
Fixpoint read_chars (fuel : nat) (data : str) (d : dec) : option (str * dec) :=
  match fuel with
  | O => None
  | S fuel =>
      r <- token d ;;
      match fst r with
      | XStart _ => d' <- skip fuel (snd r) ;; read_chars fuel data d'
      | XEnd _ => Some (data, snd r)
      | XChar s => read_chars fuel (data ++ s) (snd r)
      | XOther => read_chars fuel data (snd r)
      end
  end.

(** nextNonWhitespaceToken, util.go:11-25. *)
Fixpoint next_solid (fuel : nat) (d : dec) : option (xtoken * dec) :=
  match fuel with
  | O => None
  | S fuel =>
      r <- token d ;;
      match fst r with
      | XChar s => if blank s then next_solid fuel (snd r) else Some r
      | _ => Some r
      end
  end.

(** ** Structs *)

(** What reads an element whose start tag has been read, into a value of any
    type. *)
Definition streamer := forall t, interp t -> option (interp t * dec).

(** The search of Decoder.unmarshalPath for a field. *)
Fixpoint find_field (fs : flds) (parents : list str) (nm : str) (k : streamer) :
  interp_flds fs -> found (interp_flds fs * dec) :=
  match fs return interp_flds fs -> found (interp_flds fs * dec) with
  | FNil => fun _ => NoMatch
  | FCons ps n _ t fs' => fun v =>
      let next := found_map (fun r => ((fst v, fst r), snd r)) (find_field fs' parents nm k (snd v)) in
      match strip_prefix parents ps with
      | None => next
      | Some [] =>
          if str_eqb n nm then Hit (option_map (fun r => ((fst r, snd v), snd r)) (k t (fst v))) else next
      | Some (p :: _) => if str_eqb p nm then Prefix else next
      end
  end.

(** The switch statements over the name of an element in InvTranList.UnmarshalXML
    (invstmt.go:567-708) and SecurityList.UnmarshalXML (seclist.go:281-315). *)
Fixpoint switch_custom (fs : flds) (nm : str) (k : streamer) :
  interp_flds fs -> option (interp_flds fs * dec) :=
  match fs return interp_flds fs -> option (interp_flds fs * dec) with
  | FNil => fun _ => None
  | FCons _ n _ t fs' => fun v =>
      if (match t with TAlts a => has_alt a nm | _ => str_eqb n nm end)
      then option_map (fun r => ((fst r, snd v), snd r)) (k t (fst v))
      else option_map (fun r => ((fst v, fst r), snd r)) (switch_custom fs' nm k (snd v))
  end.

(** The same in PositionList.UnmarshalXML (invstmt.go:954-987) and
    OOList.UnmarshalXML (invstmt.go:1223-1292). *)
Fixpoint switch_alts (a : alts) (nm : str) (k : streamer) : option (interp_alts a * dec) :=
  match a return option (interp_alts a * dec) with
  | ANil => None
  | ACons rd _ t a' =>
      if str_eqb rd nm then option_map (fun r => (inl (fst r), snd r)) (k t (zero t))
      else option_map (fun r => (inr (fst r), snd r)) (switch_alts a' nm k)
  end.

(** The loop of the hand-written UnmarshalXML methods, for example
    invstmt.go:559-712: [element] reads the element that begins with the start tag
    just read. *)
Fixpoint method_loop {A} (fuel : nat) (name : str) (element : str -> A -> dec -> option (A * dec))
  (v : A) (d : dec) : option (A * dec) :=
  match fuel with
  | O => None
  | S fuel =>
      r <- next_solid (S fuel) d ;;
      match fst r with
      | XEnd nm => if str_eqb nm name then Some (v, snd r) else None
      | XStart nm => x <- element nm v (snd r) ;; method_loop fuel name element (fst x) (snd x)
      | _ => None
      end
  end.

(** Decoder.unmarshal of an element whose start tag, with the name [name], has
    been read: all types but structs without methods are done with the functions
    above. [fields] is the loop over the content of a struct and [value] reads an
    element inside this one. *)
Definition value_streamer (e : env) (fuel : nat)
  (value : forall t, str -> interp t -> dec -> option (interp t * dec))
  (fields : forall fs, list str -> interp_flds fs -> dec -> option (interp_flds fs * dec))
  (name : str) (d : dec) : streamer :=
  fix go (t : ty) : interp t -> option (interp t * dec) :=
    match t return interp t -> option (interp t * dec) with
    | TLeaf l => fun _ =>
        interface (fun d => r <- read_chars fuel [] d ;; v <- leaf_unmarshal e l (fst r) ;; Some (v, snd r)) d
    | TStruct x fs => fun old =>
        if negb (null x) && negb (str_eqb x name) then None else fields fs [] old d
    | TPtr t => fun old =>
        option_map (fun r => (Some (fst r), snd r)) (go t (match old with Some v => v | None => zero t end))
    | TSlice t => fun old => option_map (fun r => (old ++ [fst r], snd r)) (go t (zero t))
    | TCustom _ fs => fun old =>
        interface (method_loop fuel name (fun nm v d => switch_custom fs nm (fun t old => value t nm old d) v) old) d
    | TAlts a => fun old =>
        option_map (fun r => (old ++ [fst r], snd r))
          ((fix go_alts (a : alts) : option (interp_alts a * dec) :=
              match a return option (interp_alts a * dec) with
              | ANil => None
              | ACons rd _ t a' =>
                  if str_eqb rd name then option_map (fun r => (inl (fst r), snd r)) (go t (zero t))
                  else option_map (fun r => (inr (fst r), snd r)) (go_alts a')
              end) a)
    | TAltList _ a => fun old =>
        interface (method_loop fuel name (fun nm v d =>
          option_map (fun r => (v ++ [fst r], snd r)) (switch_alts a nm (fun t old => value t nm old d))) old) d
    | TMsgSets fs => fun old =>
        (* profile.go:93-128 *)
        interface (method_loop fuel name (fun _ v d =>
          r <- next_solid fuel d ;;
          match fst r with
          | XStart vname =>
              x <- value (TStruct [] (FCons [] (bs "Name") false (TLeaf LString) fs)) vname ([], zero_flds fs) (snd r) ;;
              y <- next_solid fuel (snd x) ;;
              match fst y with
              | XEnd _ => Some (v ++ [(vname, snd (fst x))], snd y)
              | _ => None
              end
          | _ => None
          end) old) d
    end.

(** Decoder.unmarshal, and its loop over the content of a struct together with
    that of unmarshalPath: elements no field wants are skipped. *)
Fixpoint s_value (e : env) (fuel : nat) (t : ty) (name : str) (old : interp t) (d : dec) {struct fuel} :
  option (interp t * dec) :=
  match fuel with
  | O => None
  | S fuel => value_streamer e fuel (s_value e fuel) (s_fields e fuel) name d t old
  end
with s_fields (e : env) (fuel : nat) (fs : flds) (parents : list str) (v : interp_flds fs) (d : dec) {struct fuel} :
  option (interp_flds fs * dec) :=
  match fuel with
  | O => None
  | S fuel =>
      r <- token d ;;
      match fst r with
      | XStart nm =>
          match find_field fs parents nm (fun t old => s_value e fuel t nm old (snd r)) v with
          | NoMatch => d' <- skip fuel (snd r) ;; s_fields e fuel fs parents v d'
          | Prefix =>
              x <- s_fields e fuel fs (parents ++ [nm]) v (snd r) ;;
              s_fields e fuel fs parents (fst x) (snd x)
          | Hit o => x <- o ;; s_fields e fuel fs parents (fst x) (snd x)
          end
      | XEnd _ => Some (v, snd r)
      | _ => s_fields e fuel fs parents v (snd r)
      end
  end.

(** ** Responses *)

(** responseTypes, response.go:209-231, and the decoding of one message,
    response.go:246-261. *)
Definition s_message (e : env) (fuel : nat) (set : msgset) (nm : str) (d : dec) : option (Message * dec) :=
  let as_ {R} (t : ty) (of : interp t -> R) (mk : R -> Message) :=
    option_map (fun r => (mk (of (fst r)), snd r)) (s_value e fuel t nm (zero t) d) in
  match set with
  | MSignup =>
      if str_eqb nm (bs "ACCTINFOTRNRS") then as_ AcctInfoResponse_ty AcctInfoResponse_of MsgAcctInfoResponse
      else None
  | MBank =>
      if str_eqb nm (bs "STMTTRNRS") then as_ StatementResponse_ty StatementResponse_of MsgStatementResponse
      else None
  | MCreditCard =>
      if str_eqb nm (bs "CCSTMTTRNRS") then as_ CCStatementResponse_ty CCStatementResponse_of MsgCCStatementResponse
      else None
  | MInvStmt =>
      if str_eqb nm (bs "INVSTMTTRNRS") then as_ InvStatementResponse_ty InvStatementResponse_of MsgInvStatementResponse
      else None
  | MSecList =>
      if str_eqb nm (bs "SECLISTTRNRS") then as_ SecListResponse_ty SecListResponse_of MsgSecListResponse
      else if str_eqb nm (bs "SECLIST") then as_ SecurityList_ty SecurityList_of MsgSecurityList
      else None
  | MProf =>
      if str_eqb nm (bs "PROFTRNRS") then as_ ProfileResponse_ty ProfileResponse_of MsgProfileResponse
      else None
  | _ => None
  end.

(** decodeMessageSet, response.go:233-265. *)
Definition s_message_set (e : env) (fuel : nat) (set : msgset) (name : str) (d : dec) : option (list Message * dec) :=
  method_loop fuel name (fun nm v d =>
    option_map (fun r => (v ++ [fst r], snd r)) (s_message e fuel set nm d)) [] d.

(** The loop of DecodeResponse, response.go:359-376. *)
Definition s_sets (e : env) (fuel : nat) (d : dec) : option (Slots * dec) :=
  method_loop fuel (bs "OFX") (fun nm s d =>
    set <- response_set nm ;;
    r <- s_message_set e fuel set nm d ;;
    Some (append_to set (fst r) s, snd r)) no_messages d.

(** The beginning of Decoder.unmarshal for Decode: look for a start tag. *)
Fixpoint find_start (fuel : nat) (d : dec) : option (str * dec) :=
  match fuel with
  | O => None
  | S fuel =>
      r <- token d ;;
      match fst r with
      | XStart nm => Some (nm, snd r)
      | _ => find_start fuel (snd r)
      end
  end.

(** DecodeResponse from the OFX element on, response.go:314-377: the response and
    the decoder as it is then. *)
Definition s_ofx (e : env) (fuel : nat) (version : N) (d : dec) : option (Response * dec) :=
  a <- next_solid fuel d ;;
  match fst a with
  | XStart nm =>
      if negb (str_eqb nm (bs "OFX")) then None
      else
        b <- next_solid fuel (snd a) ;;
        match fst b with
        | XStart sn =>
            if negb (str_eqb sn (msgtype_string (MSignon, Rs))) then None
            else
              c <- find_start fuel (snd b) ;;
              v <- s_value e fuel SignonResponse_ty (fst c) (zero SignonResponse_ty) (snd c) ;;
              x <- next_solid fuel (snd v) ;;
              match fst x with
              | XEnd en =>
                  if negb (str_eqb en (msgtype_string (MSignon, Rs))) then None
                  else
                    s <- s_sets e fuel (snd x) ;;
                    Some (mkResponse version (SignonResponse_of (fst v)) (fst s), snd s)
              | _ => None
              end
        | _ => None
        end
  | _ => None
  end.

(** DecodeResponse, response.go:284-377. The raw tokens are those up to the first
    syntax error; the decoder asks for them one by one. *)
Definition stream_response (e : env) (fuel : nat) (s : str) : option Response :=
  if guess_xml s then
    h <- read_xml_headers (lex true s) ;;
    option_map fst (s_ofx e fuel (fst h) (mkDec true [] (snd h) []))
  else
    h <- read_sgml_headers s ;;
    option_map fst (s_ofx e fuel (fst h) (mkDec false ofx_leaf_elements (lex false (snd h)) [])).
