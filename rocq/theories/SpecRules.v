(** The rules of validity, in the order in which they are looked at, each with what
    is reported if it is broken. *)
From Coq Require Import QArith.
From Verif Require Import GoStr GoTime Types Enums EnumTables Records Messages SpecValid.
Close Scope Q_scope.

Definition rule := (Prop * str)%type.

(** [text] belongs to the first rule that does not hold. *)
Inductive first_broken : list rule -> str -> Prop :=
| fb_here (P : Prop) text l : ~ P -> first_broken ((P, text) :: l) text
| fb_later (P : Prop) t l text : P -> first_broken l text -> first_broken ((P, t) :: l) text.

Definition rules_of {A} (f : A -> list rule) (o : option A) : list rule := match o with Some x => f x | None => [] end.

Definition uid_rules (u : str) : list rule := [(uid_ok u, bs "UID invalid length")].
Definition symbol_rules (c : str) : list rule := [(symbol_ok c, bs "Invalid CurrSymbol: XXX")].

Definition status_rules (s : Status) : list rule :=
  [ (Status_Severity s = bs "INFO" \/ Status_Severity s = bs "WARN" \/ Status_Severity s = bs "ERROR", bs "Invalid STATUS>SEVERITY")
  ; (known_code (Status_Code s), bs "Unknown OFX status code")
  ; (status_ok s, bs "Unexpected SEVERITY for STATUS>CODE") ].

Definition signon_rules (r : SignonRequest) : list rule :=
  [ (len_between 1 32 (SignonRequest_UserID r), bs "SONRQ>USERID invalid length")
  ; ((SignonRequest_UserPass r = [] <-> SignonRequest_UserKey r <> []), bs "One and only one of SONRQ>USERPASS and USERKEY must be supplied")
  ; (length (SignonRequest_UserPass r) <= 32, bs "SONRQ>USERPASS invalid length")
  ; (length (SignonRequest_UserKey r) <= 64, bs "SONRQ>USERKEY invalid length")
  ; (SignonRequest_Language r = [] \/ length (SignonRequest_Language r) = 3, bs "SONRQ>LANGUAGE invalid length: """ ++ SignonRequest_Language r ++ bs """")
  ; (len_between 1 5 (SignonRequest_AppID r), bs "SONRQ>APPID invalid length")
  ; (len_between 1 4 (SignonRequest_AppVer r), bs "SONRQ>APPVER invalid length") ].

Definition signon_response_rules (r : SignonResponse) : list rule :=
  (length (SignonResponse_Language r) = 3, bs "SONRS>LANGUAGE invalid length: """ ++ SignonResponse_Language r ++ bs """")
  :: status_rules (SignonResponse_Status r).

Definition bank_acct_rules (b : BankAcct) : list rule :=
  [ (BankAcct_BankID b <> [], bs "BankAcct.BankID empty")
  ; (BankAcct_AcctID b <> [], bs "BankAcct.AcctID empty")
  ; ((1 <= BankAcct_AcctType b <= 5)%N, bs "Invalid or unspecified BankAcct.AcctType") ].

Definition cc_acct_rules (c : CCAcct) : list rule := [(CCAcct_AcctID c <> [], bs "CCAcct.AcctID empty")].

Definition payee_rules (p : Payee) : list rule :=
  [ (Payee_Name p <> [], bs "Payee.Name empty")
  ; (Payee_Addr1 p <> [], bs "Payee.Addr1 empty")
  ; (Payee_City p <> [], bs "Payee.City empty")
  ; (Payee_State p <> [], bs "Payee.State empty")
  ; (Payee_PostalCode p <> [], bs "Payee.PostalCode empty")
  ; (Payee_Country p = [] \/ length (Payee_Country p) = 3, bs "Payee.Country invalid length")
  ; (Payee_Phone p <> [], bs "Payee.Phone empty") ].

(** The fourth says the opposite of what was found (see C37). The last is the text for
    pending transactions; the one about ImageData is for versions before 220. *)
Definition transaction_rules (version : N) (t : Transaction) : list rule :=
  [ ((1 <= Transaction_TrnType t <= 18)%N /\ Transaction_TrnType t <> 17%N, bs "Transaction.TrnType invalid")
  ; (date_given (Transaction_DtPosted t), bs "Transaction.DtPosted not filled")
  ; (Transaction_FiTID t <> [], bs "Transaction.FiTID empty")
  ; (~ (correction_given t /\ correct_action_ok t), bs "Transaction.CorrectFiTID nonempty but CorrectAction invalid")
  ; (Transaction_Name t = [] \/ Transaction_Payee t = None, bs "Only one of Transaction.Name and Payee may be specified") ] ++
  rules_of payee_rules (Transaction_Payee t) ++
  [ (Transaction_BankAcctTo t = None \/ Transaction_CCAcctTo t = None, bs "Only one of Transaction.BankAcctTo and CCAcctTo may be specified") ] ++
  rules_of bank_acct_rules (Transaction_BankAcctTo t) ++
  rules_of cc_acct_rules (Transaction_CCAcctTo t) ++
  [ (Transaction_ImageData t = [] \/ (OfxVersion220 <= version)%N, bs "Transaction.ImageData only supportd for OFX > 220")
  ; (length (Transaction_ImageData t) <= 2, bs "Only 2 of ImageData allowed in Transaction")
  ; (~ (exists c o, Transaction_Currency t = Some c /\ Transaction_OrigCurrency t = Some o /\ currency_accepted c /\ currency_accepted o),
     bs "Currency and OrigCurrency both supplied for Pending Transaction, only one allowed") ].

Definition transaction_list_rules (version : N) (l : TransactionList) : list rule :=
  [ (date_given (TransactionList_DtStart l), bs "TransactionList.DtStart not filled")
  ; (date_given (TransactionList_DtEnd l), bs "TransactionList.DtEnd not filled") ] ++
  flat_map (transaction_rules version) (TransactionList_Transactions l).

Definition pending_rules (t : PendingTransaction) : list rule :=
  [ ((1 <= PendingTransaction_TrnType t <= 18)%N, bs "PendingTransaction.TrnType invalid")
  ; (date_given (PendingTransaction_DtTran t), bs "PendingTransaction.DtTran not filled")
  ; (PendingTransaction_Name t <> [], bs "PendingTransaction.Name empty")
  ; (~ (currency_accepted (PendingTransaction_Currency t) /\ currency_accepted (PendingTransaction_OrigCurrency t)),
     bs "Currency and OrigCurrency both supplied for Pending Transaction, only one allowed") ].

Definition pending_list_rules (version : N) (l : PendingTransactionList) : list rule :=
  [ ((OfxVersion220 <= version)%N, bs "StatementResponse.BankTranListP invalid for OFX < 2.2")
  ; (date_given (PendingTransactionList_DtAsOf l), bs "PendingTransactionList.DtAsOf not filled") ] ++
  flat_map pending_rules (PendingTransactionList_Transactions l).

(** One of the two is enough for the first text. *)
Definition balance_rules (b : Balance) : list rule :=
  [ (Balance_Name b <> [] /\ Balance_Desc b <> [], bs "Balance Name and Desc not supplied")
  ; ((1 <= Balance_BalType b <= 3)%N, bs "Balance BALTYPE not specified") ].

Definition statement_request_rules (version : N) (r : StatementRequest) : list rule :=
  uid_rules (StatementRequest_TrnUID r) ++
  [ (StatementRequest_IncludePending r = true -> (OfxVersion220 <= version)%N, bs "StatementRequest.IncludePending invalid for OFX < 2.2")
  ; (StatementRequest_IncTranImg r = true -> (OfxVersion210 <= version)%N, bs "StatementRequest.IncTranImg invalid for OFX < 2.1") ] ++
  bank_acct_rules (StatementRequest_BankAcctFrom r).

Definition statement_rules (version : N) (r : StatementResponse) : list rule :=
  uid_rules (StatementResponse_TrnUID r) ++
  status_rules (StatementResponse_Status r) ++
  symbol_rules (StatementResponse_CurDef r) ++
  bank_acct_rules (StatementResponse_BankAcctFrom r) ++
  [ (date_given (StatementResponse_DtAsOf r), bs "StatementResponse.DtAsOf not filled")
  ; ((StatementResponse_AvailBalAmt r = None <-> StatementResponse_AvailDtAsOf r = None), bs "StatementResponse.Avail* must both either be present or absent") ] ++
  rules_of (transaction_list_rules version) (StatementResponse_BankTranList r) ++
  rules_of (pending_list_rules version) (StatementResponse_BankTranListP r) ++
  flat_map balance_rules (StatementResponse_BalList r).

Definition message_rules (version : N) (m : Message) : list rule :=
  match m with
  | MsgStatementRequest r => statement_request_rules version r
  | MsgStatementResponse r => statement_rules version r
  | MsgAcctInfoRequest r => uid_rules (AcctInfoRequest_TrnUID r)
  | MsgCCStatementRequest r => uid_rules (CCStatementRequest_TrnUID r)
  | MsgInvStatementRequest r => uid_rules (InvStatementRequest_TrnUID r)
  | MsgSecListRequest r => uid_rules (SecListRequest_TrnUID r)
  | MsgProfileRequest r => uid_rules (ProfileRequest_TrnUID r)
  | MsgAcctInfoResponse r => uid_rules (AcctInfoResponse_TrnUID r)
  | MsgCCStatementResponse r => uid_rules (CCStatementResponse_TrnUID r)
  | MsgInvStatementResponse r => uid_rules (InvStatementResponse_TrnUID r)
  | MsgSecListResponse r => uid_rules (SecListResponse_TrnUID r)
  | MsgSecurityList _ => []
  | MsgProfileResponse r => uid_rules (ProfileResponse_TrnUID r)
  end.

Definition currency_rules (c : Currency) : list rule :=
  (~ (exists k, (Currency_CurRate c == inject_Z (k * 2 ^ 64)%Z)%Q), bs "CurRate may not be zero") :: symbol_rules (Currency_CurSym c).
