(** What the validity checks of the library mean, stated on the data alone. *)
From Coq Require Import QArith.
From Verif Require Import GoStr GoTime Types Enums EnumTables Records Messages.
Local Open Scope Z_scope.

(** ** Status codes: the OFX table of codes by severity *)

Definition info_codes : list Z := [0; 1; 10000; 13000; 15000].
Definition warn_codes : list Z := [2028; 6501; 12250; 12251; 12252; 12253; 12254].
Definition error_codes : list Z :=
  [2000; 2001; 2002; 2003; 2004; 2005; 2006; 2007; 2008; 2009; 2010; 2011; 2012; 2014;
   2015; 2016; 2017; 2018; 2019; 2020; 2021; 2022; 2023; 2025; 2026; 2027; 3000; 3001;
   6500; 6502; 10500; 10501; 10502; 10503; 10504; 10505; 10506; 10507; 10508; 10509;
   10510; 10511; 10512; 10513; 10514; 10515; 10516; 10517; 10518; 10519; 10600; 12255;
   12500; 13500; 13501; 13502; 13503; 13504; 14500; 14501; 14600; 14601; 14700; 14701;
   15500; 15501; 15502; 15503; 15504; 15505; 15506; 15507; 15508; 15510; 15511; 15512;
   15513; 16500; 16501; 16502; 16503].

Definition known_code (c : Z) : Prop :=
  In c info_codes \/ In c warn_codes \/ In c error_codes.

Definition status_ok (s : Status) : Prop :=
  (In (Status_Code s) info_codes /\ Status_Severity s = bs "INFO") \/
  (In (Status_Code s) warn_codes /\ Status_Severity s = bs "WARN") \/
  (In (Status_Code s) error_codes /\ Status_Severity s = bs "ERROR").

(** ** Sign-on *)

Definition len_between (lo hi : nat) (s : str) : Prop := (lo <= length s <= hi)%nat.

Definition signon_ok (r : SignonRequest) : Prop :=
  len_between 1 32 (SignonRequest_UserID r) /\
  ((SignonRequest_UserPass r <> [] /\ SignonRequest_UserKey r = []) \/
   (SignonRequest_UserPass r = [] /\ SignonRequest_UserKey r <> [])) /\
  (length (SignonRequest_UserPass r) <= 32)%nat /\
  (length (SignonRequest_UserKey r) <= 64)%nat /\
  (SignonRequest_Language r = [] \/ length (SignonRequest_Language r) = 3%nat) /\
  len_between 1 5 (SignonRequest_AppID r) /\
  len_between 1 4 (SignonRequest_AppVer r).

(** Two requests agree on every field except the language. *)
Definition same_but_language (a b : SignonRequest) : Prop :=
  SignonRequest_DtClient a = SignonRequest_DtClient b /\
  SignonRequest_UserID a = SignonRequest_UserID b /\
  SignonRequest_UserPass a = SignonRequest_UserPass b /\
  SignonRequest_UserKey a = SignonRequest_UserKey b /\
  SignonRequest_GenUserKey a = SignonRequest_GenUserKey b /\
  SignonRequest_Org a = SignonRequest_Org b /\
  SignonRequest_Fid a = SignonRequest_Fid b /\
  SignonRequest_AppID a = SignonRequest_AppID b /\
  SignonRequest_AppVer a = SignonRequest_AppVer b /\
  SignonRequest_ClientUID a = SignonRequest_ClientUID b.

(** ** Accounts, currencies *)

Definition uid_ok (u : str) : Prop := len_between 1 36 u.

(** Account types are numbered 1 (CHECKING) to 5 (CD). *)
Definition bank_acct_ok (b : BankAcct) : Prop :=
  BankAcct_BankID b <> [] /\ BankAcct_AcctID b <> [] /\ (1 <= BankAcct_AcctType b <= 5)%N.

Definition cc_acct_ok (c : CCAcct) : Prop := CCAcct_AcctID c <> [].

(** XXX is the ISO 4217 code for "no currency". *)
Definition symbol_ok (c : str) : Prop := c <> bs "XXX".

Definition currency_ok (c : Currency) : Prop :=
  ~ (Currency_CurRate c == 0)%Q /\ symbol_ok (Currency_CurSym c).

(** What the library accepts instead of [currency_ok]: it looks only at the low
    64 bits of an integer rate, so every multiple of 2^64 counts as zero. *)
Definition currency_accepted (c : Currency) : Prop :=
  ~ (exists k, (Currency_CurRate c == inject_Z (k * 2 ^ 64))%Q) /\ symbol_ok (Currency_CurSym c).

(** ** Transactions *)

Definition date_given (d : gotime) : Prop := t_ns d <> 0.

Definition payee_ok (p : Payee) : Prop :=
  Payee_Name p <> [] /\ Payee_Addr1 p <> [] /\ Payee_City p <> [] /\ Payee_State p <> [] /\
  Payee_PostalCode p <> [] /\ (Payee_Country p = [] \/ length (Payee_Country p) = 3%nat) /\
  Payee_Phone p <> [].

(** Transaction types are numbered 1 to 18; HOLD is 17. Correction actions are
    1 (DELETE) and 2 (REPLACE). *)
Definition correction_given (t : Transaction) : Prop :=
  Transaction_CorrectFiTID t <> [].
Definition correct_action_ok (t : Transaction) : Prop :=
  (1 <= Transaction_CorrectAction t <= 2)%N.

(** Everything the library asks of a transaction except about corrections.
    [cur_ok] is what makes a currency count as given. *)
Definition transaction_ok_but_correction (cur_ok : Currency -> Prop) (is220 : bool)
           (t : Transaction) : Prop :=
  ((1 <= Transaction_TrnType t <= 18)%N /\ Transaction_TrnType t <> 17%N) /\
  date_given (Transaction_DtPosted t) /\
  Transaction_FiTID t <> [] /\
  ~ (Transaction_Name t <> [] /\ Transaction_Payee t <> None) /\
  (forall p, Transaction_Payee t = Some p -> payee_ok p) /\
  ~ (Transaction_BankAcctTo t <> None /\ Transaction_CCAcctTo t <> None) /\
  (forall b, Transaction_BankAcctTo t = Some b -> bank_acct_ok b) /\
  (forall c, Transaction_CCAcctTo t = Some c -> cc_acct_ok c) /\
  (Transaction_ImageData t <> [] -> is220 = true) /\
  (length (Transaction_ImageData t) <= 2)%nat /\
  (forall c o, Transaction_Currency t = Some c -> Transaction_OrigCurrency t = Some o ->
     ~ (cur_ok c /\ cur_ok o)).

(** What the library accepts: it refuses a correction because its action is
    valid, instead of because it is not. *)
Definition transaction_accepted (is220 : bool) (t : Transaction) : Prop :=
  transaction_ok_but_correction currency_accepted is220 t /\
  ~ (correction_given t /\ correct_action_ok t).

(** What it ought to accept. *)
Definition transaction_ok (is220 : bool) (t : Transaction) : Prop :=
  transaction_ok_but_correction currency_accepted is220 t /\
  (correction_given t -> correct_action_ok t).

Definition pending_ok (cur_ok : Currency -> Prop) (t : PendingTransaction) : Prop :=
  (1 <= PendingTransaction_TrnType t <= 18)%N /\
  date_given (PendingTransaction_DtTran t) /\
  PendingTransaction_Name t <> [] /\
  ~ (cur_ok (PendingTransaction_Currency t) /\ cur_ok (PendingTransaction_OrigCurrency t)).

(** Balance types are 1 (DOLLAR), 2 (PERCENT), 3 (NUMBER). *)
Definition balance_ok (b : Balance) : Prop :=
  Balance_Name b <> [] /\ Balance_Desc b <> [] /\ (1 <= Balance_BalType b <= 3)%N.

(** A bank statement, given what makes a transaction acceptable. *)
Definition statement_ok (tran_ok : Transaction -> Prop) (cur_ok : Currency -> Prop)
           (is220 : bool) (r : StatementResponse) : Prop :=
  uid_ok (StatementResponse_TrnUID r) /\
  status_ok (StatementResponse_Status r) /\
  symbol_ok (StatementResponse_CurDef r) /\
  bank_acct_ok (StatementResponse_BankAcctFrom r) /\
  date_given (StatementResponse_DtAsOf r) /\
  (StatementResponse_AvailBalAmt r = None <-> StatementResponse_AvailDtAsOf r = None) /\
  (forall l, StatementResponse_BankTranList r = Some l ->
     date_given (TransactionList_DtStart l) /\ date_given (TransactionList_DtEnd l) /\
     forall t, In t (TransactionList_Transactions l) -> tran_ok t) /\
  (forall l, StatementResponse_BankTranListP r = Some l ->
     is220 = true /\ date_given (PendingTransactionList_DtAsOf l) /\
     forall t, In t (PendingTransactionList_Transactions l) -> pending_ok cur_ok t) /\
  (forall b, In b (StatementResponse_BalList r) -> balance_ok b).

(** ** Messages *)

(** What is asked of a sign-on response. *)
Definition signon_response_ok (r : SignonResponse) : Prop :=
  length (SignonResponse_Language r) = 3%nat /\ status_ok (SignonResponse_Status r).

(** What is asked of a message in a document of the given version. Of most
    messages it is no more than a transaction id of a possible length. *)
Definition message_ok (version : N) (m : Message) : Prop :=
  match m with
  | MsgStatementRequest r =>
      uid_ok (StatementRequest_TrnUID r) /\
      (StatementRequest_IncludePending r = true -> (OfxVersion220 <= version)%N) /\
      (StatementRequest_IncTranImg r = true -> (OfxVersion210 <= version)%N) /\
      bank_acct_ok (StatementRequest_BankAcctFrom r)
  | MsgStatementResponse r =>
      statement_ok (transaction_accepted (OfxVersion220 <=? version)%N) currency_accepted
        (OfxVersion220 <=? version)%N r
  | MsgAcctInfoRequest r => uid_ok (AcctInfoRequest_TrnUID r)
  | MsgCCStatementRequest r => uid_ok (CCStatementRequest_TrnUID r)
  | MsgInvStatementRequest r => uid_ok (InvStatementRequest_TrnUID r)
  | MsgSecListRequest r => uid_ok (SecListRequest_TrnUID r)
  | MsgProfileRequest r => uid_ok (ProfileRequest_TrnUID r)
  | MsgAcctInfoResponse r => uid_ok (AcctInfoResponse_TrnUID r)
  | MsgCCStatementResponse r => uid_ok (CCStatementResponse_TrnUID r)
  | MsgInvStatementResponse r => uid_ok (InvStatementResponse_TrnUID r)
  | MsgSecListResponse r => uid_ok (SecListResponse_TrnUID r)
  | MsgSecurityList _ => True
  | MsgProfileResponse r => uid_ok (ProfileResponse_TrnUID r)
  end.
