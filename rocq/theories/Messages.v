(** The Valid, Name and Type methods of the message structs and of the structs
    they contain: /repo/signon.go, bank.go, creditcard.go, invstmt.go,
    profile.go, seclist.go and signup.go. A version is a value of the
    enumeration ofxVersion (1 for 102 up to 11 for 220); Go compares versions as
    integers. *)
From Coq Require Import QArith.
From Verif Require Import GoStr GoNum GoRat GoTime Types Enums EnumTables Records Common.

(** ** signon.go *)

(** SignonRequest.Valid, signon.go:33-58, with the receiver after the call. *)
Definition signon_request_valid (r : SignonRequest) : SignonRequest * validity :=
  let len s := length s in
  let userid := len (SignonRequest_UserID r) in
  if (userid <? 1) || (32 <? userid) then (r, invalid "SONRQ>USERID invalid length")
  else if Bool.eqb (empty (SignonRequest_UserPass r)) (empty (SignonRequest_UserKey r))
  then (r, invalid "One and only one of SONRQ>USERPASS and USERKEY must be supplied")
  else if 32 <? len (SignonRequest_UserPass r) then (r, invalid "SONRQ>USERPASS invalid length")
  else if 64 <? len (SignonRequest_UserKey r) then (r, invalid "SONRQ>USERKEY invalid length")
  else
    let lang := SignonRequest_Language r in
    if negb (empty lang) && negb (Nat.eqb (len lang) 3) then
      (r, Some (bs "SONRQ>LANGUAGE invalid length: """ ++ lang ++ bs """"))
    else
      let r' :=
        if empty lang then
          mkSignonRequest (SignonRequest_DtClient r) (SignonRequest_UserID r)
            (SignonRequest_UserPass r) (SignonRequest_UserKey r) (SignonRequest_GenUserKey r)
            (bs "ENG") (SignonRequest_Org r) (SignonRequest_Fid r) (SignonRequest_AppID r)
            (SignonRequest_AppVer r) (SignonRequest_ClientUID r)
        else r in
      let appid := len (SignonRequest_AppID r') in
      let appver := len (SignonRequest_AppVer r') in
      if (appid <? 1) || (5 <? appid) then (r', invalid "SONRQ>APPID invalid length")
      else if (appver <? 1) || (4 <? appver) then (r', invalid "SONRQ>APPVER invalid length")
      else (r', None).

(** SignonResponse.Valid, signon.go:83-88. *)
Definition signon_response_valid (r : SignonResponse) : validity :=
  if negb (Nat.eqb (length (SignonResponse_Language r)) 3) then
    Some (bs "SONRS>LANGUAGE invalid length: """ ++ SignonResponse_Language r ++ bs """")
  else status_valid (SignonResponse_Status r).

(** ** bank.go *)

(** StatementRequest.Valid, bank.go:33-44. *)
Definition statement_request_valid (r : StatementRequest) (version : N) : validity :=
  uid_validity (StatementRequest_TrnUID r) ;;;
  check (StatementRequest_IncludePending r && (version <? OfxVersion220)%N)
        "StatementRequest.IncludePending invalid for OFX < 2.2" ;;;
  check (StatementRequest_IncTranImg r && (version <? OfxVersion210)%N)
        "StatementRequest.IncTranImg invalid for OFX < 2.1" ;;;
  bank_acct_valid (StatementRequest_BankAcctFrom r).

(** Payee.Valid, bank.go:67-84. *)
Definition payee_valid (p : Payee) : validity :=
  check (empty (Payee_Name p)) "Payee.Name empty" ;;;
  check (empty (Payee_Addr1 p)) "Payee.Addr1 empty" ;;;
  check (empty (Payee_City p)) "Payee.City empty" ;;;
  check (empty (Payee_State p)) "Payee.State empty" ;;;
  check (empty (Payee_PostalCode p)) "Payee.PostalCode empty" ;;;
  check (negb (empty (Payee_Country p)) && negb (Nat.eqb (length (Payee_Country p)) 3))
        "Payee.Country invalid length" ;;;
  check (empty (Payee_Phone p)) "Payee.Phone empty".

(** A pointer that is only looked at when it is not nil. *)
Definition if_present {A} (f : A -> validity) (o : option A) : validity :=
  match o with None => None | Some x => f x end.

Definition is_some {A} (o : option A) : bool := match o with Some _ => true | None => false end.
Definition is_valid (v : validity) : bool := match v with None => true | Some _ => false end.

(** Date.Equal against the zero Date. *)
Definition date_empty (d : gotime) : bool := date_equal d zero_time.

(** Transaction.Valid, bank.go:135-180. Line 143 rejects a correction whose
    action is valid; the model keeps this. *)
Definition transaction_valid (t : Transaction) (version : N) : validity :=
  check (negb (enum_valid enum_trnType (Transaction_TrnType t)) ||
         (Transaction_TrnType t =? TrnTypeHold)%N) "Transaction.TrnType invalid" ;;;
  check (date_empty (Transaction_DtPosted t)) "Transaction.DtPosted not filled" ;;;
  check (empty (Transaction_FiTID t)) "Transaction.FiTID empty" ;;;
  check (negb (empty (Transaction_CorrectFiTID t)) &&
         enum_valid enum_correctAction (Transaction_CorrectAction t))
        "Transaction.CorrectFiTID nonempty but CorrectAction invalid" ;;;
  check (negb (empty (Transaction_Name t)) && is_some (Transaction_Payee t))
        "Only one of Transaction.Name and Payee may be specified" ;;;
  if_present payee_valid (Transaction_Payee t) ;;;
  (match Transaction_BankAcctTo t, Transaction_CCAcctTo t with
   | Some _, Some _ =>
       invalid "Only one of Transaction.BankAcctTo and CCAcctTo may be specified"
   | Some b, None => bank_acct_valid b
   | None, Some c => cc_acct_valid c
   | None, None => None
   end) ;;;
  check ((version <? OfxVersion220)%N && (0 <? length (Transaction_ImageData t)))
        "Transaction.ImageData only supportd for OFX > 220" ;;;
  check (2 <? length (Transaction_ImageData t))
        "Only 2 of ImageData allowed in Transaction" ;;;
  check ((match Transaction_Currency t with
          | Some c => is_valid (currency_valid c) | None => false end) &&
         (match Transaction_OrigCurrency t with
          | Some c => is_valid (currency_valid c) | None => false end))
        "Currency and OrigCurrency both supplied for Pending Transaction, only one allowed".

(** TransactionList.Valid, bank.go:192-206. *)
Definition transaction_list_valid (l : TransactionList) (version : N) : validity :=
  check (date_empty (TransactionList_DtStart l)) "TransactionList.DtStart not filled" ;;;
  check (date_empty (TransactionList_DtEnd l)) "TransactionList.DtEnd not filled" ;;;
  all_valid (fun t => transaction_valid t version) (TransactionList_Transactions l).

(** PendingTransaction.Valid, bank.go:229-244. *)
Definition pending_transaction_valid (t : PendingTransaction) : validity :=
  check (negb (enum_valid enum_trnType (PendingTransaction_TrnType t)))
        "PendingTransaction.TrnType invalid" ;;;
  check (date_empty (PendingTransaction_DtTran t)) "PendingTransaction.DtTran not filled" ;;;
  check (empty (PendingTransaction_Name t)) "PendingTransaction.Name empty" ;;;
  check (is_valid (currency_valid (PendingTransaction_Currency t)) &&
         is_valid (currency_valid (PendingTransaction_OrigCurrency t)))
        "Currency and OrigCurrency both supplied for Pending Transaction, only one allowed".

(** PendingTransactionList.Valid, bank.go:255-267. *)
Definition pending_transaction_list_valid (l : PendingTransactionList) : validity :=
  check (date_empty (PendingTransactionList_DtAsOf l)) "PendingTransactionList.DtAsOf not filled" ;;;
  all_valid pending_transaction_valid (PendingTransactionList_Transactions l).

(** Balance.Valid, bank.go:287-295. *)
Definition balance_valid (b : Balance) : validity :=
  check (empty (Balance_Name b) || empty (Balance_Desc b))
        "Balance Name and Desc not supplied" ;;;
  check (negb (enum_valid enum_balType (Balance_BalType b))) "Balance BALTYPE not specified".

(** StatementResponse.Valid, bank.go:326-360. *)
Definition statement_response_valid (r : StatementResponse) (version : N) : validity :=
  uid_validity (StatementResponse_TrnUID r) ;;;
  status_valid (StatementResponse_Status r) ;;;
  curr_validity (StatementResponse_CurDef r) ;;;
  bank_acct_valid (StatementResponse_BankAcctFrom r) ;;;
  check (date_empty (StatementResponse_DtAsOf r)) "StatementResponse.DtAsOf not filled" ;;;
  check (negb (Bool.eqb (negb (is_some (StatementResponse_AvailBalAmt r)))
                        (negb (is_some (StatementResponse_AvailDtAsOf r)))))
        "StatementResponse.Avail* must both either be present or absent" ;;;
  if_present (fun l => transaction_list_valid l version) (StatementResponse_BankTranList r) ;;;
  if_present (fun l =>
    check (version <? OfxVersion220)%N "StatementResponse.BankTranListP invalid for OFX < 2.2" ;;;
    pending_transaction_list_valid l) (StatementResponse_BankTranListP r) ;;;
  all_valid balance_valid (StatementResponse_BalList r).

(** ** profile.go *)

(** ProfileRequest.Valid, profile.go:29-36, with the receiver after the call. *)
Definition profile_request_valid (r : ProfileRequest) : ProfileRequest * validity :=
  match uid_validity (ProfileRequest_TrnUID r) with
  | Some e => (r, Some e)
  | None =>
      (mkProfileRequest (ProfileRequest_TrnUID r) (ProfileRequest_CltCookie r)
         (ProfileRequest_TAN r) (bs "NONE") (ProfileRequest_DtProfUp r), None)
  end.

(** ** Messages *)

(** The structs of the library that satisfy the interface Message
    (common.go:52-56): those with a method Type. *)
Inductive Message :=
| MsgAcctInfoRequest (r : AcctInfoRequest)
| MsgStatementRequest (r : StatementRequest)
| MsgCCStatementRequest (r : CCStatementRequest)
| MsgInvStatementRequest (r : InvStatementRequest)
| MsgSecListRequest (r : SecListRequest)
| MsgProfileRequest (r : ProfileRequest)
| MsgAcctInfoResponse (r : AcctInfoResponse)
| MsgStatementResponse (r : StatementResponse)
| MsgCCStatementResponse (r : CCStatementResponse)
| MsgInvStatementResponse (r : InvStatementResponse)
| MsgSecListResponse (r : SecListResponse)
| MsgSecurityList (r : SecurityList)
| MsgProfileResponse (r : ProfileResponse).

(** Message.Type: signup.go:36,164, bank.go:48,364, creditcard.go:41,89,
    invstmt.go:47,1519, seclist.go:55,89,267, profile.go:40,204. *)
Definition message_type (m : Message) : msgtype :=
  match m with
  | MsgAcctInfoRequest _ => (MSignup, Rq)
  | MsgStatementRequest _ => (MBank, Rq)
  | MsgCCStatementRequest _ => (MCreditCard, Rq)
  | MsgInvStatementRequest _ => (MInvStmt, Rq)
  | MsgSecListRequest _ => (MSecList, Rq)
  | MsgProfileRequest _ => (MProf, Rq)
  | MsgAcctInfoResponse _ => (MSignup, Rs)
  | MsgStatementResponse _ => (MBank, Rs)
  | MsgCCStatementResponse _ => (MCreditCard, Rs)
  | MsgInvStatementResponse _ => (MInvStmt, Rs)
  | MsgSecListResponse _ => (MSecList, Rs)
  | MsgSecurityList _ => (MSecList, Rs)
  | MsgProfileResponse _ => (MProf, Rs)
  end.

(** Message.Name: signup.go:20,149, bank.go:27,321, creditcard.go:25,74,
    invstmt.go:31,1504, seclist.go:39,74,255, profile.go:23,189. *)
Definition message_name (m : Message) : str :=
  match m with
  | MsgAcctInfoRequest _ => bs "ACCTINFOTRNRQ"
  | MsgStatementRequest _ => bs "STMTTRNRQ"
  | MsgCCStatementRequest _ => bs "CCSTMTTRNRQ"
  | MsgInvStatementRequest _ => bs "INVSTMTTRNRQ"
  | MsgSecListRequest _ => bs "SECLISTTRNRQ"
  | MsgProfileRequest _ => bs "PROFTRNRQ"
  | MsgAcctInfoResponse _ => bs "ACCTINFOTRNRS"
  | MsgStatementResponse _ => bs "STMTTRNRS"
  | MsgCCStatementResponse _ => bs "CCSTMTTRNRS"
  | MsgInvStatementResponse _ => bs "INVSTMTTRNRS"
  | MsgSecListResponse _ => bs "SECLISTTRNRS"
  | MsgSecurityList _ => bs "SECLIST"
  | MsgProfileResponse _ => bs "PROFTRNRS"
  end.

(** Message.Valid, with the message after the call (only ProfileRequest's
    changes it): signup.go:26-32,154-160, bank.go, creditcard.go:31-37,79-85,
    invstmt.go:37-43,1509-1515, seclist.go:45-51,79-85,260-263, profile.go. *)
Definition message_valid (m : Message) (version : N) : Message * validity :=
  match m with
  | MsgAcctInfoRequest r => (m, uid_validity (AcctInfoRequest_TrnUID r))
  | MsgStatementRequest r => (m, statement_request_valid r version)
  | MsgCCStatementRequest r => (m, uid_validity (CCStatementRequest_TrnUID r))
  | MsgInvStatementRequest r => (m, uid_validity (InvStatementRequest_TrnUID r))
  | MsgSecListRequest r => (m, uid_validity (SecListRequest_TrnUID r))
  | MsgProfileRequest r =>
      let '(r', v) := profile_request_valid r in (MsgProfileRequest r', v)
  | MsgAcctInfoResponse r => (m, uid_validity (AcctInfoResponse_TrnUID r))
  | MsgStatementResponse r => (m, statement_response_valid r version)
  | MsgCCStatementResponse r => (m, uid_validity (CCStatementResponse_TrnUID r))
  | MsgInvStatementResponse r => (m, uid_validity (InvStatementResponse_TrnUID r))
  | MsgSecListResponse r => (m, uid_validity (SecListResponse_TrnUID r))
  | MsgSecurityList _ => (m, None)
  | MsgProfileResponse r => (m, uid_validity (ProfileResponse_TrnUID r))
  end.
