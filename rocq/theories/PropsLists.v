(** C33-C36, C53: the lists with hand-written encoders and decoders, and the
    methods that say which kind of item one has. *)
From Coq Require Import QArith.
From Verif Require Import GoStr GoTime Types Enums Records Messages Codec SpecCodec Schema Document SpecDocument
  SpecLists ListFacts Accessors AccessorFacts Samples.
Close Scope Q_scope.

(** C33: a security list is written with one element for each security, with the
    name of its kind and in the same order; it reads as a list of securities iff
    each child of the list reads as the security in its place; and what has been
    written reads as what it was. *)
Theorem C33_written : forall r, exists kids,
  encode_as SecurityList_ty (SecurityList_to r) = Some [Elem (bs "SECLIST") kids] /\
  Forall2 (fun s n => is_element (security_name s) n) (SecurityList_Securities r) kids.
Proof. exact security_list_encode. Qed.
Print Assumptions C33_written.

Theorem C33_read : forall e nm kids r,
  option_map SecurityList_of (unmarshal e SecurityList_ty (Elem nm kids) (zero SecurityList_ty)) = Some r <->
  Forall2 (security_reads e) (SecurityList_Securities r) (solid kids).
Proof. exact security_list_reads. Qed.
Print Assumptions C33_read.

Theorem C33_round_trip : forall e r n,
  representable e SecurityList_ty (SecurityList_to r) ->
  encode_as SecurityList_ty (SecurityList_to r) = Some [n] ->
  option_map SecurityList_of (unmarshal e SecurityList_ty n (zero SecurityList_ty)) = Some r.
Proof. exact security_list_round_trip. Qed.
Print Assumptions C33_round_trip.

Example C33_case :
  representable sample_env SecurityList_ty (SecurityList_to sample_securities) /\
  length (SecurityList_Securities sample_securities) = 3 /\
  (* a child that is no security makes decoding fail *)
  unmarshal sample_env SecurityList_ty (Elem (bs "SECLIST") [Elem (bs "BONDINFO") []]) (zero SecurityList_ty) = None.
Proof.
  split; [apply sample_representable; vm_compute; reflexivity|]. split; reflexivity.
Qed.

(** C34: an investment transaction list is written as the two dates, the
    transactions in order, each under the name of its kind, and the bank
    transactions in order. *)
Theorem C34_written : forall r, exists d1 d2 ts bts,
  encode_as InvTranList_ty (InvTranList_to r) =
    Some [Elem (bs "INVTRANLIST") (Elem (bs "DTSTART") d1 :: Elem (bs "DTEND") d2 :: ts ++ bts)] /\
  text_of d1 = date_string (InvTranList_DtStart r) /\ text_of d2 = date_string (InvTranList_DtEnd r) /\
  Forall2 (fun s n => is_element (transaction_name s) n) (InvTranList_InvTransactions r) ts /\
  Forall2 (fun s n => is_element (bs "INVBANKTRAN") n) (InvTranList_BankTransactions r) bts.
Proof. exact tran_list_encode. Qed.
Print Assumptions C34_written.

(** When a list is read, the dates, transactions and bank transactions may come
    in any order; each transaction is kept, in the order of its group, and any
    other child is an error. *)
Theorem C34_read : forall e nm kids r,
  option_map InvTranList_of (unmarshal e InvTranList_ty (Elem nm kids) (zero InvTranList_ty)) = Some r ->
  last_date e (having [bs "DTSTART"] (solid kids)) (InvTranList_DtStart r) /\
  last_date e (having [bs "DTEND"] (solid kids)) (InvTranList_DtEnd r) /\
  Forall2 (transaction_reads e) (InvTranList_InvTransactions r) (having transaction_names (solid kids)) /\
  Forall2 (bank_transaction_reads e) (InvTranList_BankTransactions r) (having [bs "INVBANKTRAN"] (solid kids)) /\
  Forall known_child (solid kids).
Proof. exact tran_list_reads. Qed.
Print Assumptions C34_read.

(** Conversely a list all of whose children read as one of these is accepted. *)
Theorem C34_accepted : forall e nm kids, Forall (child_reads e) (solid kids) ->
  unmarshal e InvTranList_ty (Elem nm kids) (zero InvTranList_ty) <> None.
Proof. exact tran_list_some. Qed.
Print Assumptions C34_accepted.

Theorem C34_round_trip : forall e r n,
  representable e InvTranList_ty (InvTranList_to r) ->
  encode_as InvTranList_ty (InvTranList_to r) = Some [n] ->
  option_map InvTranList_of (unmarshal e InvTranList_ty n (zero InvTranList_ty)) = Some r.
Proof. exact tran_list_round_trip. Qed.
Print Assumptions C34_round_trip.

Example C34_case :
  representable sample_env InvTranList_ty (InvTranList_to sample_transactions) /\
  length (InvTranList_InvTransactions sample_transactions) = 3 /\
  (* transactions before the dates and around a bank transaction *)
  option_map InvTranList_of (unmarshal sample_env InvTranList_ty (Elem (bs "INVTRANLIST")
    [Elem (bs "SPLIT") []; Elem (bs "INVBANKTRAN") []; Elem (bs "INCOME") [];
     Elem (bs "DTSTART") [Text (bs "20240229134559.250[0:GMT]")]]) (zero InvTranList_ty)) =
  Some (mkInvTranList sample_date zero_time
    [InvTransaction_Split (Split_of (zero Split_ty)); InvTransaction_Income (Income_of (zero Income_ty))]
    [InvBankTransaction_of (zero InvBankTransaction_ty)]).
Proof.
  split; [apply sample_representable; vm_compute; reflexivity|]. split; vm_compute; reflexivity.
Qed.

(** C35: position lists and open order lists. *)
Theorem C35_positions_written : forall l, exists kids,
  encode_as PositionList_ty (map Position_to l) = Some [Elem (bs "INVPOSLIST") kids] /\
  Forall2 (fun s n => is_element (position_name s) n) l kids.
Proof. exact position_list_encode. Qed.
Print Assumptions C35_positions_written.

Theorem C35_positions_read : forall e nm kids l,
  option_map (map Position_of) (unmarshal e PositionList_ty (Elem nm kids) (zero PositionList_ty)) = Some l <->
  Forall2 (position_reads e) l (solid kids).
Proof. exact position_list_reads. Qed.
Print Assumptions C35_positions_read.

Theorem C35_positions_round_trip : forall e l n,
  representable e PositionList_ty (map Position_to l) ->
  encode_as PositionList_ty (map Position_to l) = Some [n] ->
  option_map (map Position_of) (unmarshal e PositionList_ty n (zero PositionList_ty)) = Some l.
Proof. exact position_list_round. Qed.
Print Assumptions C35_positions_round_trip.

Theorem C35_orders_written : forall l, exists kids,
  encode_as OOList_ty (map OpenOrder_to l) = Some [Elem (bs "INVOOLIST") kids] /\
  Forall2 (fun s n => is_element (order_name s) n) l kids.
Proof. exact order_list_encode. Qed.
Print Assumptions C35_orders_written.

Theorem C35_orders_read : forall e nm kids l,
  option_map (map OpenOrder_of) (unmarshal e OOList_ty (Elem nm kids) (zero OOList_ty)) = Some l <->
  Forall2 (order_reads e) l (solid kids).
Proof. exact order_list_reads. Qed.
Print Assumptions C35_orders_read.

Theorem C35_orders_round_trip : forall e l n,
  representable e OOList_ty (map OpenOrder_to l) ->
  encode_as OOList_ty (map OpenOrder_to l) = Some [n] ->
  option_map (map OpenOrder_of) (unmarshal e OOList_ty n (zero OOList_ty)) = Some l.
Proof. exact order_list_round. Qed.
Print Assumptions C35_orders_round_trip.

Example C35_case :
  representable sample_env PositionList_ty (map Position_to sample_positions) /\
  representable sample_env OOList_ty (map OpenOrder_to sample_orders) /\
  map order_name sample_orders = [bs "OOSELLDEBT"; bs "OOBUYSTOCK"; bs "OOSELLDEBT"] /\
  unmarshal sample_env OOList_ty (Elem [] [Elem (bs "POSSTOCK") []]) (zero OOList_ty) = None.
Proof.
  split; [apply sample_representable; vm_compute; reflexivity|].
  split; [apply sample_representable; vm_compute; reflexivity|]. split; reflexivity.
Qed.

(** C36: message set lists of profiles. *)
Theorem C36_written : forall l,
  (Forall (fun s => message_set_name (MessageSet_Name s)) l <->
   exists n, encode_as MessageSetList_ty (map MessageSet_to l) = Some [n]) /\
  (forall ns, encode_as MessageSetList_ty (map MessageSet_to l) = Some ns ->
   exists kids, ns = [Elem (bs "MSGSETLIST") kids] /\ Forall2 message_set_element l kids).
Proof. exact message_set_list_encode. Qed.
Print Assumptions C36_written.

Theorem C36_read : forall e nm kids l,
  option_map (map MessageSet_of) (unmarshal e MessageSetList_ty (Elem nm kids) (zero MessageSetList_ty)) = Some l <->
  Forall2 (message_set_reads e) l (solid kids).
Proof. exact message_set_list_reads. Qed.
Print Assumptions C36_read.

Theorem C36_round_trip : forall e l n,
  representable e MessageSetList_ty (map MessageSet_to l) ->
  encode_as MessageSetList_ty (map MessageSet_to l) = Some [n] ->
  option_map (map MessageSet_of) (unmarshal e MessageSetList_ty n (zero MessageSetList_ty)) = Some l.
Proof. exact message_set_list_round. Qed.
Print Assumptions C36_round_trip.

Example C36_case :
  representable sample_env MessageSetList_ty (map MessageSet_to sample_sets) /\
  Forall (fun s => message_set_name (MessageSet_Name s)) sample_sets /\
  (exists n, encode_as MessageSetList_ty (map MessageSet_to sample_sets) = Some [n]).
Proof.
  assert (H : Forall (fun s => message_set_name (MessageSet_Name s)) sample_sets).
  { repeat constructor; [exists (bs "BANKMSGSET") | exists (bs "SIGNONMSGSET")]; (split; [discriminate | reflexivity]). }
  split; [apply sample_representable; vm_compute; reflexivity|]. split; [exact H|].
  apply (proj1 (C36_written sample_sets)). exact H.
Qed.

(** C53: the type method of an item is the element name it is read from and
    written under, and the method for the common part returns what stands in its
    INVTRAN, SECINFO or INVPOS element. *)
Theorem C53_types_read : forall e n,
  (forall t, transaction_reads e t n -> is_element (InvTransaction_TransactionType_method t) n) /\
  (forall s, security_reads e s n -> is_element (Security_SecurityType_method s) n) /\
  (forall p, position_reads e p n -> is_element (Position_PositionType_method p) n) /\
  (forall o, order_reads e o n -> is_element (OpenOrder_OrderType_method o) n).
Proof.
  intros e n. split; [|split; [|split]]; intros x; destruct x; intros [H _]; exact H.
Qed.
Print Assumptions C53_types_read.

Theorem C53_types_written :
  (forall t, InvTransaction_TransactionType_method t = transaction_name t) /\
  (forall s, Security_SecurityType_method s = security_name s) /\
  (forall p, Position_PositionType_method p = position_name p) /\
  (forall o, OpenOrder_OrderType_method o = order_name o).
Proof. split; [|split; [|split]]; intros x; destruct x; reflexivity. Qed.
Print Assumptions C53_types_written.

Theorem C53_transactions : forall r kids,
  encode_as InvTranList_ty (InvTranList_to r) = Some [Elem (bs "INVTRANLIST") kids] ->
  Forall2 (fun s n => common (bs "INVTRAN") InvTran_ty (InvTran_to (InvTransaction_InvTransaction_method s)) n)
    (InvTranList_InvTransactions r) (having transaction_names kids).
Proof. exact tran_list_common. Qed.
Print Assumptions C53_transactions.

Theorem C53_securities : forall r kids,
  encode_as SecurityList_ty (SecurityList_to r) = Some [Elem (bs "SECLIST") kids] ->
  Forall2 (fun s n => common (bs "SECINFO") SecInfo_ty (SecInfo_to (Security_SecurityInfo_method s)) n)
    (SecurityList_Securities r) kids.
Proof. exact security_list_common. Qed.
Print Assumptions C53_securities.

Theorem C53_positions : forall l kids,
  encode_as PositionList_ty (map Position_to l) = Some [Elem (bs "INVPOSLIST") kids] ->
  Forall2 (fun s n => common (bs "INVPOS") InvPosition_ty (InvPosition_to (Position_InvPosition_method s)) n) l kids.
Proof. exact position_list_common. Qed.
Print Assumptions C53_positions.

Example C53_case : exists kids,
  encode_as InvTranList_ty (InvTranList_to sample_transactions) = Some [Elem (bs "INVTRANLIST") kids] /\
  map (fun t => InvTran_FiTID (InvTransaction_InvTransaction_method t)) (InvTranList_InvTransactions sample_transactions) =
    [bs "23321"; bs "23321"; bs "23321"].
Proof.
  destruct (tran_list_encode sample_transactions) as (d1 & d2 & ts & bts & E & _).
  eexists. split; [exact E | reflexivity].
Qed.
