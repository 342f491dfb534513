(** What is asked of the values a document is written from, and what is said
    about the bytes. *)
From Coq Require Import QArith.
From Verif Require Import GoStr GoTime Types Enums EnumTables Records Common Messages Codec Schema Document
  SpecCodec SpecXml
  Leaves SpecDocument.
Close Scope Q_scope.

(** ** Names *)

(** The simple elements of SGML documents, in any spelling of their case: those
    that need no end tag. *)
Definition uppercase (c : ascii) : ascii :=
  if ((97 <=? code c) && (code c <=? 122))%N then chr (code c - 32) else c.
Definition simple_element (nm : str) : Prop := In (map uppercase nm) ofx_leaf_elements.

(** The request fields that came with version 2 of OFX. *)
Definition ofx2_options : list str :=
  [bs "INCLUDEPENDING"; bs "INCTRANIMG"; bs "INC401K"; bs "INC401KBAL"; bs "INCTRANIMAGE"].

(** ** Text *)

(** The text fields of a value hold text that XML can carry. For a date this is
    the name of its time zone. *)
Definition clean_text (l : leafty) : leafval l -> Prop :=
  match l return leafval l -> Prop with
  | LString | LUID | LCurr => fun s => xml_string s
  | LDate => fun t => xml_string (t_zone t)
  | _ => fun _ => True
  end.

(** The name of a message set of a profile becomes an element name and has to be
    one: letters, digits and such, ending in V1. *)
Definition set_element_name (n : str) : Prop :=
  exists stem, n = stem ++ bs "V1" /\ plain_name stem /\ ~ simple_element stem /\ ~ simple_element n.

(** Every field of a message satisfies [P]. *)
Definition message_every (P : forall l, leafval l -> Prop) (m : Message) : Prop :=
  match m with
  | MsgAcctInfoRequest r => every P AcctInfoRequest_ty (AcctInfoRequest_to r)
  | MsgStatementRequest r => every P StatementRequest_ty (StatementRequest_to r)
  | MsgCCStatementRequest r => every P CCStatementRequest_ty (CCStatementRequest_to r)
  | MsgInvStatementRequest r => every P InvStatementRequest_ty (InvStatementRequest_to r)
  | MsgSecListRequest r => every P SecListRequest_ty (SecListRequest_to r)
  | MsgProfileRequest r => every P ProfileRequest_ty (ProfileRequest_to r)
  | MsgAcctInfoResponse r => every P AcctInfoResponse_ty (AcctInfoResponse_to r)
  | MsgStatementResponse r => every P StatementResponse_ty (StatementResponse_to r)
  | MsgCCStatementResponse r => every P CCStatementResponse_ty (CCStatementResponse_to r)
  | MsgInvStatementResponse r => every P InvStatementResponse_ty (InvStatementResponse_to r)
  | MsgSecListResponse r => every P SecListResponse_ty (SecListResponse_to r)
  | MsgSecurityList r => every P SecurityList_ty (SecurityList_to r)
  | MsgProfileResponse r => every P ProfileResponse_ty (ProfileResponse_to r)
  end.

(** The names of the message sets in a profile are element names. *)
Definition message_named (m : Message) : Prop :=
  match m with
  | MsgProfileResponse r =>
      Forall (fun s => set_element_name (MessageSet_Name s)) (ProfileResponse_MessageSetList r)
  | _ => True
  end.

Definition message_clean (m : Message) : Prop := message_every clean_text m /\ message_named m.

Definition response_named (r : Response) : Prop :=
  forall set ms m, In (set, ms) (response_sets (rs_slots r)) -> In m ms -> message_named m.

Definition response_clean (r : Response) : Prop :=
  every clean_text SignonResponse_ty (SignonResponse_to (rs_signon r)) /\
  forall set ms m, In (set, ms) (response_sets (rs_slots r)) -> In m ms -> message_clean m.

Definition request_clean (q : Request) : Prop :=
  every clean_text SignonRequest_ty (SignonRequest_to (rq_signon q)) /\
  forall set ms m, In (set, ms) (request_sets (rq_slots q)) -> In m ms -> message_every clean_text m.

(** ** Parts of a tree *)

Inductive part_of : node -> node -> Prop :=
| part_self n : part_of n n
| part_below n k nm kids : In k kids -> part_of n k -> part_of n (Elem nm kids).
