(** What a request or response document ought to contain, stated without the
    encoder: the names of the message sets in their order, which set a message
    belongs to, and which messages can be written at all. *)
From Coq Require Import QArith.
From Verif Require Import GoStr GoTime Types Enums Records Common Messages Codec SpecCodec Schema Document SpecValid.
Close Scope Q_scope.

(** The message sets in the order of the OFX specification. *)
Definition request_sets (s : Slots) : list (str * list Message) :=
  [ (bs "SIGNUPMSGSRQV1", sl_signup s);
    (bs "BANKMSGSRQV1", sl_bank s);
    (bs "CREDITCARDMSGSRQV1", sl_creditcard s);
    (bs "LOANMSGSRQV1", sl_loan s);
    (bs "INVSTMTMSGSRQV1", sl_invstmt s);
    (bs "INTERXFERMSGSRQV1", sl_interxfer s);
    (bs "WIREXFERMSGSRQV1", sl_wirexfer s);
    (bs "BILLPAYMSGSRQV1", sl_billpay s);
    (bs "EMAILMSGSRQV1", sl_email s);
    (bs "SECLISTMSGSRQV1", sl_seclist s);
    (bs "PRESDIRMSGSRQV1", sl_presdir s);
    (bs "PRESDLVMSGSRQV1", sl_presdlv s);
    (bs "PROFMSGSRQV1", sl_prof s);
    (bs "IMAGEMSGSRQV1", sl_image s) ].

Definition response_sets (s : Slots) : list (str * list Message) :=
  [ (bs "SIGNUPMSGSRSV1", sl_signup s);
    (bs "BANKMSGSRSV1", sl_bank s);
    (bs "CREDITCARDMSGSRSV1", sl_creditcard s);
    (bs "LOANMSGSRSV1", sl_loan s);
    (bs "INVSTMTMSGSRSV1", sl_invstmt s);
    (bs "INTERXFERMSGSRSV1", sl_interxfer s);
    (bs "WIREXFERMSGSRSV1", sl_wirexfer s);
    (bs "BILLPAYMSGSRSV1", sl_billpay s);
    (bs "EMAILMSGSRSV1", sl_email s);
    (bs "SECLISTMSGSRSV1", sl_seclist s);
    (bs "PRESDIRMSGSRSV1", sl_presdir s);
    (bs "PRESDLVMSGSRSV1", sl_presdlv s);
    (bs "PROFMSGSRSV1", sl_prof s);
    (bs "IMAGEMSGSRSV1", sl_image s) ].

(** The element name of a message and the name of the set it belongs to. *)
Definition transaction_tag (m : Message) : str :=
  match m with
  | MsgAcctInfoRequest _ => bs "ACCTINFOTRNRQ"
  | MsgStatementRequest _ => bs "STMTTRNRQ"
  | MsgCCStatementRequest _ => bs "CCSTMTTRNRQ"
  | MsgInvStatementRequest _ => bs "INVSTMTTRNRQ"
  | MsgSecListRequest _ => bs "SECLISTTRNRQ"
  | MsgProfileRequest _ => bs "PROFTRNRQ"
  | MsgAcctInfoResponse _ => bs "ACCTINFOTRNRS"
  | MsgStatementResponse _ => bs "STMTTRNRS"
  | MsgCCStatementResponse _ => bs "CCSTMTTRNRS"
  | MsgInvStatementResponse _ => bs "INVSTMTTRNRS"
  | MsgSecListResponse _ => bs "SECLISTTRNRS"
  | MsgSecurityList _ => bs "SECLIST"
  | MsgProfileResponse _ => bs "PROFTRNRS"
  end.

Definition belongs_in (m : Message) : str :=
  match m with
  | MsgAcctInfoRequest _ => bs "SIGNUPMSGSRQV1"
  | MsgStatementRequest _ => bs "BANKMSGSRQV1"
  | MsgCCStatementRequest _ => bs "CREDITCARDMSGSRQV1"
  | MsgInvStatementRequest _ => bs "INVSTMTMSGSRQV1"
  | MsgSecListRequest _ => bs "SECLISTMSGSRQV1"
  | MsgProfileRequest _ => bs "PROFMSGSRQV1"
  | MsgAcctInfoResponse _ => bs "SIGNUPMSGSRSV1"
  | MsgStatementResponse _ => bs "BANKMSGSRSV1"
  | MsgCCStatementResponse _ => bs "CREDITCARDMSGSRSV1"
  | MsgInvStatementResponse _ => bs "INVSTMTMSGSRSV1"
  | MsgSecListResponse _ => bs "SECLISTMSGSRSV1"
  | MsgSecurityList _ => bs "SECLISTMSGSRSV1"
  | MsgProfileResponse _ => bs "PROFMSGSRSV1"
  end.

(** A name a message set of a profile can have: it ends in V1 and is more than
    that. *)
Definition message_set_name (n : str) : Prop := exists stem, stem <> [] /\ n = stem ++ bs "V1".

(** The messages the encoder can write. *)
Definition encodable (m : Message) : Prop :=
  match m with
  | MsgProfileResponse r =>
      Forall (fun s => message_set_name (MessageSet_Name s)) (ProfileResponse_MessageSetList r)
  | _ => True
  end.

(** The messages whose fields all have a text form that says the same, and, for
    investment statements, without details of 401(k) loans (see C52). *)
Definition no_loans (r : InvStatementResponse) : Prop :=
  forall k, InvStatementResponse_Inv401K r = Some k -> Inv401K_LoanInfo k = [].

Definition message_representable (e : env) (m : Message) : Prop :=
  match m with
  | MsgAcctInfoRequest r => representable e AcctInfoRequest_ty (AcctInfoRequest_to r)
  | MsgStatementRequest r => representable e StatementRequest_ty (StatementRequest_to r)
  | MsgCCStatementRequest r => representable e CCStatementRequest_ty (CCStatementRequest_to r)
  | MsgInvStatementRequest r => representable e InvStatementRequest_ty (InvStatementRequest_to r)
  | MsgSecListRequest r => representable e SecListRequest_ty (SecListRequest_to r)
  | MsgProfileRequest r => representable e ProfileRequest_ty (ProfileRequest_to r)
  | MsgAcctInfoResponse r => representable e AcctInfoResponse_ty (AcctInfoResponse_to r)
  | MsgStatementResponse r => representable e StatementResponse_ty (StatementResponse_to r)
  | MsgCCStatementResponse r => representable e CCStatementResponse_ty (CCStatementResponse_to r)
  | MsgInvStatementResponse r =>
      representable e InvStatementResponse_ty (InvStatementResponse_to r) /\ no_loans r
  | MsgSecListResponse r => representable e SecListResponse_ty (SecListResponse_to r)
  | MsgSecurityList r => representable e SecurityList_ty (SecurityList_to r)
  | MsgProfileResponse r => representable e ProfileResponse_ty (ProfileResponse_to r)
  end.

Definition response_representable (e : env) (r : Response) : Prop :=
  representable e SignonResponse_ty (SignonResponse_to (rs_signon r)) /\
  forall set ms m, In (set, ms) (response_sets (rs_slots r)) -> In m ms -> message_representable e m.

(** The element [n] reads back as the message [m]: decoding it into a new struct
    of the message's type gives [m]. *)
Definition reads_as (e : env) (n : node) (m : Message) : Prop :=
  match m with
  | MsgAcctInfoRequest r =>
      option_map AcctInfoRequest_of (unmarshal e AcctInfoRequest_ty n (zero AcctInfoRequest_ty)) = Some r
  | MsgStatementRequest r =>
      option_map StatementRequest_of (unmarshal e StatementRequest_ty n (zero StatementRequest_ty)) = Some r
  | MsgCCStatementRequest r =>
      option_map CCStatementRequest_of (unmarshal e CCStatementRequest_ty n (zero CCStatementRequest_ty)) = Some r
  | MsgInvStatementRequest r =>
      option_map InvStatementRequest_of (unmarshal e InvStatementRequest_ty n (zero InvStatementRequest_ty)) = Some r
  | MsgSecListRequest r =>
      option_map SecListRequest_of (unmarshal e SecListRequest_ty n (zero SecListRequest_ty)) = Some r
  | MsgProfileRequest r =>
      option_map ProfileRequest_of (unmarshal e ProfileRequest_ty n (zero ProfileRequest_ty)) = Some r
  | MsgAcctInfoResponse r =>
      option_map AcctInfoResponse_of (unmarshal e AcctInfoResponse_ty n (zero AcctInfoResponse_ty)) = Some r
  | MsgStatementResponse r =>
      option_map StatementResponse_of (unmarshal e StatementResponse_ty n (zero StatementResponse_ty)) = Some r
  | MsgCCStatementResponse r =>
      option_map CCStatementResponse_of (unmarshal e CCStatementResponse_ty n (zero CCStatementResponse_ty)) = Some r
  | MsgInvStatementResponse r =>
      option_map InvStatementResponse_of (unmarshal e InvStatementResponse_ty n (zero InvStatementResponse_ty)) = Some r
  | MsgSecListResponse r =>
      option_map SecListResponse_of (unmarshal e SecListResponse_ty n (zero SecListResponse_ty)) = Some r
  | MsgSecurityList r =>
      option_map SecurityList_of (unmarshal e SecurityList_ty n (zero SecurityList_ty)) = Some r
  | MsgProfileResponse r =>
      option_map ProfileResponse_of (unmarshal e ProfileResponse_ty n (zero ProfileResponse_ty)) = Some r
  end.

(** [n] is the element for message [m]: it has its name, and reads back as the
    message if that is possible at all. *)
Definition written_as (m : Message) (n : node) : Prop :=
  (exists kids, n = Elem (transaction_tag m) kids) /\
  forall e, message_representable e m -> reads_as e n m.

(** The elements for a table of message sets: none for an empty set, one for
    every other, holding one element for each message in order. [w] says which
    element stands for a message. *)
Inductive sets_written (w : Message -> node -> Prop) : list (str * list Message) -> list node -> Prop :=
| sets_none : sets_written w [] []
| sets_empty : forall set tbl ns,
    sets_written w tbl ns -> sets_written w ((set, []) :: tbl) ns
| sets_one : forall set ms kids tbl ns,
    ms <> [] -> Forall2 w ms kids ->
    sets_written w tbl ns -> sets_written w ((set, ms) :: tbl) (Elem set kids :: ns).

(** A message as it is sent: profile requests always ask for routing NONE. *)
Definition sent (m : Message) : Message :=
  match m with
  | MsgProfileRequest r =>
      MsgProfileRequest (mkProfileRequest (ProfileRequest_TrnUID r) (ProfileRequest_CltCookie r)
        (ProfileRequest_TAN r) (bs "NONE") (ProfileRequest_DtProfUp r))
  | _ => m
  end.

(** The sign-on request as it is sent: the language defaults to English. *)
Definition sent_signon (r : SignonRequest) : SignonRequest :=
  mkSignonRequest (SignonRequest_DtClient r) (SignonRequest_UserID r)
    (SignonRequest_UserPass r) (SignonRequest_UserKey r) (SignonRequest_GenUserKey r)
    (match SignonRequest_Language r with [] => bs "ENG" | l => l end)
    (SignonRequest_Org r) (SignonRequest_Fid r) (SignonRequest_AppID r)
    (SignonRequest_AppVer r) (SignonRequest_ClientUID r).

Definition map_slots (f : Message -> Message) (s : Slots) : Slots :=
  mkSlots (map f (sl_signup s)) (map f (sl_bank s)) (map f (sl_creditcard s)) (map f (sl_loan s))
    (map f (sl_invstmt s)) (map f (sl_interxfer s)) (map f (sl_wirexfer s)) (map f (sl_billpay s))
    (map f (sl_email s)) (map f (sl_seclist s)) (map f (sl_presdir s)) (map f (sl_presdlv s))
    (map f (sl_prof s)) (map f (sl_image s)).

(** A request as it is after it has been sent. *)
Definition sent_request (q : Request) : Request :=
  mkRequest (rq_url q) (rq_version q) (sent_signon (rq_signon q)) (map_slots sent (rq_slots q))
    (rq_indent q) (rq_cr q).

(** The children of a document filed under one message set name. *)
Definition filed_under (set : str) (kids : list node) : list node :=
  flat_map (fun n => match n with
                     | Elem nm sub => if str_eqb nm set then solid sub else []
                     | _ => [] end) kids.

(** What Marshal asks of a message in the set with this name. *)
Definition acceptable (version : N) (set : str) (m : Message) : Prop :=
  belongs_in m = set /\ message_ok version m /\ encodable m.

Definition slots_acceptable (version : N) (sets : list (str * list Message)) : Prop :=
  forall set ms m, In (set, ms) sets -> In m ms -> acceptable version set m.

(** [n] is an element of the set with this name that reads as the message [m]. *)
Definition message_reads (e : env) (set : str) (m : Message) (n : node) : Prop :=
  belongs_in m = set /\ (exists kids, n = Elem (transaction_tag m) kids) /\ reads_as e n m.

(** The names of the message sets of a response. *)
Definition response_set_names : list str := map fst (response_sets no_messages).

(** What a response document says, element by element: first the sign-on set,
    whose only element is the sign-on response, then known message sets in any
    order and number, all of whose elements read as a message of the set. The
    messages of a set are those of all elements with its name, in the order of
    the document. *)
Definition no_element (n : node) : Prop := forall nm kids, n <> Elem nm kids.

Definition response_reads (e : env) (ofx : node) (r : Response) : Prop :=
  exists kids before sonrs after sets,
    ofx = Elem (bs "OFX") kids /\
    solid kids = Elem (bs "SIGNONMSGSRSV1") (before ++ sonrs :: after) :: sets /\
    Forall no_element before /\ solid after = [] /\ ~ no_element sonrs /\
    option_map SignonResponse_of (unmarshal e SignonResponse_ty sonrs (zero SignonResponse_ty)) = Some (rs_signon r) /\
    Forall (fun n => exists set sub, n = Elem set sub /\ In set response_set_names) sets /\
    forall set ms, In (set, ms) (response_sets (rs_slots r)) ->
      Forall2 (message_reads e set) ms (filed_under set sets).

(** The problems of a response, in the order in which they are reported. *)
Definition problem (v : validity) : list str := match v with Some t => [t] | None => [] end.
Definition problems (r : Response) : list str :=
  problem (signon_response_valid (rs_signon r)) ++
  flat_map (fun m => problem (snd (message_valid m (rs_version r)))) (flat_map snd (response_sets (rs_slots r))).

(** The plain errors inside an error, in order. *)
Fixpoint plain_errors (e : goerr) : list str :=
  match e with
  | EPlain t => [t]
  | EInvalid l => flat_map plain_errors l
  end.
Definition is_plain (e : goerr) : Prop := exists t, e = EPlain t.

(** The elements below [n] along a path of names. *)
Definition children (nm : str) (n : node) : list node :=
  match n with
  | Elem _ kids => filter (fun k => match k with Elem x _ => str_eqb x nm | _ => false end) kids
  | _ => []
  end.
Fixpoint descend (path : list str) (n : node) : list node :=
  match path with
  | [] => [n]
  | nm :: path' => flat_map (descend path') (children nm n)
  end.
