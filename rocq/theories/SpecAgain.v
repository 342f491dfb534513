(** What comes back when a response is written and read again (C99). *)
From Coq Require Import QArith.
From Verif Require Import GoStr GoTime Types Enums EnumTables Records Common Messages Codec Schema Document.
Close Scope Q_scope.

(** The value that is read for the text of a field. A field without a value in an
    enumeration is not written, and read as that. *)
Definition back (e : env) (l : leafty) (v : leafval l) : option (leafval l) :=
  match leaf_marshal l v with
  | Some (Some s) => leaf_unmarshal e l s
  | Some None => Some (leaf_zero l)
  | None => None
  end.

(** The field can be read from its own text. *)
Definition readable (e : env) (l : leafty) (v : leafval l) : Prop := exists w, back e l v = Some w.

(** That value, for a field that can be read. *)
Definition again (e : env) (l : leafty) (v : leafval l) : leafval l :=
  match back e l v with Some w => w | None => v end.

(** [f] applied to all the fields in a value. Nothing else changes. *)
Fixpoint changed (f : forall l, leafval l -> leafval l) (t : ty) : interp t -> interp t :=
  match t return interp t -> interp t with
  | TLeaf l => f l
  | TStruct _ fs => changed_flds f fs
  | TPtr t => option_map (changed f t)
  | TSlice t => map (changed f t)
  | TCustom _ fs => changed_flds f fs
  | TAlts a => map (changed_alts f a)
  | TAltList _ a => map (changed_alts f a)
  | TMsgSets fs => map (fun x : str * interp_flds fs => (fst x, changed_flds f fs (snd x)))
  end
with changed_flds (f : forall l, leafval l -> leafval l) (fs : flds) : interp_flds fs -> interp_flds fs :=
  match fs return interp_flds fs -> interp_flds fs with
  | FNil => fun v => v
  | FCons _ _ _ t fs' => fun v => (changed f t (fst v), changed_flds f fs' (snd v))
  end
with changed_alts (f : forall l, leafval l -> leafval l) (a : alts) : interp_alts a -> interp_alts a :=
  match a return interp_alts a -> interp_alts a with
  | ANil => fun v => v
  | ACons _ _ t a' => fun v => match v with inl x => inl (changed f t x) | inr y => inr (changed_alts f a' y) end
  end.

(** The same in a message. *)
Definition message_changed (f : forall l, leafval l -> leafval l) (m : Message) : Message :=
  match m with
  | MsgAcctInfoRequest r => MsgAcctInfoRequest (AcctInfoRequest_of (changed f AcctInfoRequest_ty (AcctInfoRequest_to r)))
  | MsgStatementRequest r => MsgStatementRequest (StatementRequest_of (changed f StatementRequest_ty (StatementRequest_to r)))
  | MsgCCStatementRequest r => MsgCCStatementRequest (CCStatementRequest_of (changed f CCStatementRequest_ty (CCStatementRequest_to r)))
  | MsgInvStatementRequest r => MsgInvStatementRequest (InvStatementRequest_of (changed f InvStatementRequest_ty (InvStatementRequest_to r)))
  | MsgSecListRequest r => MsgSecListRequest (SecListRequest_of (changed f SecListRequest_ty (SecListRequest_to r)))
  | MsgProfileRequest r => MsgProfileRequest (ProfileRequest_of (changed f ProfileRequest_ty (ProfileRequest_to r)))
  | MsgAcctInfoResponse r => MsgAcctInfoResponse (AcctInfoResponse_of (changed f AcctInfoResponse_ty (AcctInfoResponse_to r)))
  | MsgStatementResponse r => MsgStatementResponse (StatementResponse_of (changed f StatementResponse_ty (StatementResponse_to r)))
  | MsgCCStatementResponse r => MsgCCStatementResponse (CCStatementResponse_of (changed f CCStatementResponse_ty (CCStatementResponse_to r)))
  | MsgInvStatementResponse r => MsgInvStatementResponse (InvStatementResponse_of (changed f InvStatementResponse_ty (InvStatementResponse_to r)))
  | MsgSecListResponse r => MsgSecListResponse (SecListResponse_of (changed f SecListResponse_ty (SecListResponse_to r)))
  | MsgSecurityList r => MsgSecurityList (SecurityList_of (changed f SecurityList_ty (SecurityList_to r)))
  | MsgProfileResponse r => MsgProfileResponse (ProfileResponse_of (changed f ProfileResponse_ty (ProfileResponse_to r)))
  end.

(** The same in a response. *)
Definition response_changed (f : forall l, leafval l -> leafval l) (r : Response) : Response :=
  let g := map (message_changed f) in
  let s := rs_slots r in
  mkResponse (rs_version r) (SignonResponse_of (changed f SignonResponse_ty (SignonResponse_to (rs_signon r))))
    (mkSlots (g (sl_signup s)) (g (sl_bank s)) (g (sl_creditcard s)) (g (sl_loan s)) (g (sl_invstmt s)) (g (sl_interxfer s)) (g (sl_wirexfer s))
      (g (sl_billpay s)) (g (sl_email s)) (g (sl_seclist s)) (g (sl_presdir s)) (g (sl_presdlv s)) (g (sl_prof s)) (g (sl_image s))).
