(** Specification of how much a value holds, to compare it with the document it
    was read from. *)
From Coq Require Import QArith.
From Verif Require Import GoStr GoTime Types Enums EnumTables Records Common Messages Codec Schema Document SpecDocument.
Close Scope Q_scope.

Definition total (l : list nat) : nat := fold_right Nat.add 0 l.

(** The variable part of a scalar. Numbers, dates, booleans, currencies and
    enumerations take up a fixed amount of memory. Amounts have no fixed size;
    they are not counted here, see C94_amount. *)
Definition leaf_size (l : leafty) : leafval l -> nat :=
  match l return leafval l -> nat with
  | LString => fun v => length v
  | LUID => fun v => length v
  | _ => fun _ => 0
  end.

(** The size of a value: one for every struct behind a pointer and for every
    element of a slice, and the bytes of all strings. *)
Fixpoint size (t : ty) : interp t -> nat :=
  match t return interp t -> nat with
  | TLeaf l => leaf_size l
  | TStruct _ fs => size_flds fs
  | TPtr t => fun v => match v with None => 0 | Some x => S (size t x) end
  | TSlice t => fun v => total (map (fun x => S (size t x)) v)
  | TCustom _ fs => size_flds fs
  | TAlts a => fun v => total (map (fun x => S (size_alts a x)) v)
  | TAltList _ a => fun v => total (map (fun x => S (size_alts a x)) v)
  | TMsgSets fs => fun v => total (map (fun x : str * interp_flds fs => S (length (fst x) + size_flds fs (snd x))) v)
  end
with size_flds (fs : flds) : interp_flds fs -> nat :=
  match fs return interp_flds fs -> nat with
  | FNil => fun _ => 0
  | FCons _ _ _ t fs' => fun v => size t (fst v) + size_flds fs' (snd v)
  end
with size_alts (a : alts) : interp_alts a -> nat :=
  match a return interp_alts a -> nat with
  | ANil => fun _ => 0
  | ACons _ _ t a' => fun v => match v with inl x => size t x | inr y => size_alts a' y end
  end.

Definition message_size (m : Message) : nat :=
  match m with
  | MsgAcctInfoRequest r => size AcctInfoRequest_ty (AcctInfoRequest_to r)
  | MsgStatementRequest r => size StatementRequest_ty (StatementRequest_to r)
  | MsgCCStatementRequest r => size CCStatementRequest_ty (CCStatementRequest_to r)
  | MsgInvStatementRequest r => size InvStatementRequest_ty (InvStatementRequest_to r)
  | MsgSecListRequest r => size SecListRequest_ty (SecListRequest_to r)
  | MsgProfileRequest r => size ProfileRequest_ty (ProfileRequest_to r)
  | MsgAcctInfoResponse r => size AcctInfoResponse_ty (AcctInfoResponse_to r)
  | MsgStatementResponse r => size StatementResponse_ty (StatementResponse_to r)
  | MsgCCStatementResponse r => size CCStatementResponse_ty (CCStatementResponse_to r)
  | MsgInvStatementResponse r => size InvStatementResponse_ty (InvStatementResponse_to r)
  | MsgSecListResponse r => size SecListResponse_ty (SecListResponse_to r)
  | MsgSecurityList r => size SecurityList_ty (SecurityList_to r)
  | MsgProfileResponse r => size ProfileResponse_ty (ProfileResponse_to r)
  end.

Definition messages_size (ms : list Message) : nat := total (map (fun m => S (message_size m)) ms).

Definition response_size (r : Response) : nat :=
  size SignonResponse_ty (SignonResponse_to (rs_signon r)) +
  total (map (fun p => messages_size (snd p)) (response_sets (rs_slots r))).
