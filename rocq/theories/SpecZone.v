(** A response without the names of the time zones in it (C96). *)
From Coq Require Import QArith.
From Verif Require Import GoStr GoTime Types Enums EnumTables Records Common Messages Codec Schema Document.
Close Scope Q_scope.

(** A date without the name of its zone: the instant and the offset remain. *)
Definition unnamed (t : gotime) : gotime := mkTime (t_ns t) (t_off t) [].

Definition leaf_unnamed (l : leafty) : leafval l -> leafval l :=
  match l return leafval l -> leafval l with
  | LDate => unnamed
  | _ => fun v => v
  end.

(** The same for all dates in a value. Nothing else changes. *)
Fixpoint no_names (t : ty) : interp t -> interp t :=
  match t return interp t -> interp t with
  | TLeaf l => leaf_unnamed l
  | TStruct _ fs => no_names_flds fs
  | TPtr t => option_map (no_names t)
  | TSlice t => map (no_names t)
  | TCustom _ fs => no_names_flds fs
  | TAlts a => map (no_names_alts a)
  | TAltList _ a => map (no_names_alts a)
  | TMsgSets fs => map (fun x : str * interp_flds fs => (fst x, no_names_flds fs (snd x)))
  end
with no_names_flds (fs : flds) : interp_flds fs -> interp_flds fs :=
  match fs return interp_flds fs -> interp_flds fs with
  | FNil => fun v => v
  | FCons _ _ _ t fs' => fun v => (no_names t (fst v), no_names_flds fs' (snd v))
  end
with no_names_alts (a : alts) : interp_alts a -> interp_alts a :=
  match a return interp_alts a -> interp_alts a with
  | ANil => fun v => v
  | ACons _ _ t a' => fun v => match v with inl x => inl (no_names t x) | inr y => inr (no_names_alts a' y) end
  end.

Definition message_unnamed (m : Message) : Message :=
  match m with
  | MsgAcctInfoRequest r => MsgAcctInfoRequest (AcctInfoRequest_of (no_names AcctInfoRequest_ty (AcctInfoRequest_to r)))
  | MsgStatementRequest r => MsgStatementRequest (StatementRequest_of (no_names StatementRequest_ty (StatementRequest_to r)))
  | MsgCCStatementRequest r => MsgCCStatementRequest (CCStatementRequest_of (no_names CCStatementRequest_ty (CCStatementRequest_to r)))
  | MsgInvStatementRequest r => MsgInvStatementRequest (InvStatementRequest_of (no_names InvStatementRequest_ty (InvStatementRequest_to r)))
  | MsgSecListRequest r => MsgSecListRequest (SecListRequest_of (no_names SecListRequest_ty (SecListRequest_to r)))
  | MsgProfileRequest r => MsgProfileRequest (ProfileRequest_of (no_names ProfileRequest_ty (ProfileRequest_to r)))
  | MsgAcctInfoResponse r => MsgAcctInfoResponse (AcctInfoResponse_of (no_names AcctInfoResponse_ty (AcctInfoResponse_to r)))
  | MsgStatementResponse r => MsgStatementResponse (StatementResponse_of (no_names StatementResponse_ty (StatementResponse_to r)))
  | MsgCCStatementResponse r => MsgCCStatementResponse (CCStatementResponse_of (no_names CCStatementResponse_ty (CCStatementResponse_to r)))
  | MsgInvStatementResponse r => MsgInvStatementResponse (InvStatementResponse_of (no_names InvStatementResponse_ty (InvStatementResponse_to r)))
  | MsgSecListResponse r => MsgSecListResponse (SecListResponse_of (no_names SecListResponse_ty (SecListResponse_to r)))
  | MsgSecurityList r => MsgSecurityList (SecurityList_of (no_names SecurityList_ty (SecurityList_to r)))
  | MsgProfileResponse r => MsgProfileResponse (ProfileResponse_of (no_names ProfileResponse_ty (ProfileResponse_to r)))
  end.

Definition slots_unnamed (s : Slots) : Slots :=
  let f := map message_unnamed in
  mkSlots (f (sl_signup s)) (f (sl_bank s)) (f (sl_creditcard s)) (f (sl_loan s)) (f (sl_invstmt s)) (f (sl_interxfer s)) (f (sl_wirexfer s))
    (f (sl_billpay s)) (f (sl_email s)) (f (sl_seclist s)) (f (sl_presdir s)) (f (sl_presdlv s)) (f (sl_prof s)) (f (sl_image s)).

Definition response_unnamed (r : Response) : Response :=
  mkResponse (rs_version r) (SignonResponse_of (no_names SignonResponse_ty (SignonResponse_to (rs_signon r)))) (slots_unnamed (rs_slots r)).

(** The machine has another time zone, but knows the same currencies. *)
Definition same_currencies (e1 e2 : env) : Prop := forall k, env_currency e1 k = env_currency e2 k.
