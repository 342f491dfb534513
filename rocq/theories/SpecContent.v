(** What is in the element of every message: its children in order, with their
    names and their text, as a function of the fields of the Go struct. *)
From Coq Require Import String QArith.
From Verif Require Import GoStr GoTime Types Enums EnumTables Records Messages Codec SpecDocument Document SpecXml SpecHeader Leaves SpecLayout.
Close Scope Q_scope.
Open Scope string_scope.
Open Scope list_scope.

(** An element with the given content. *)
Definition inside (nm : string) (kids : list node) : list node := [Elem (bs nm) kids].

(** An element that holds text. *)
Definition text (nm : string) (s : str) : list node :=
  inside nm (match s with [] => [] | _ => [Text s] end).

(** The same, but no element at all for an empty text. *)
Definition opt_text (nm : string) (s : str) : list node :=
  match s with [] => [] | _ => inside nm [Text s] end.

(** Numbers, amounts and dates are written as they print; flags as Y and N. *)
Definition number (nm : string) (z : Z) : list node := text nm (int_marshal z).
Definition opt_number (nm : string) (z : Z) : list node := if (z =? 0)%Z then [] else number nm z.
Definition amount (nm : string) (q : Q) : list node := text nm (amount_string q).
Definition date (nm : string) (d : gotime) : list node := text nm (date_string d).
Definition flag (nm : string) (b : bool) : list node := text nm (if b then bs "Y" else bs "N").
Definition opt_flag (nm : string) (b : bool) : list node := if b then text nm (bs "Y") else [].

(** A value of an enumeration is written as its name; no element is written for
    a value that has none. *)
Definition choice (nm : string) (t : enum) (v : N) : list node :=
  match v with
  | 0%N => []
  | _ => match nth_error (en_names t) (N.to_nat v - 1) with Some n => text nm n | None => [] end
  end.

(** Pointers and slices. *)
Definition given {A} (f : A -> list node) (o : option A) : list node :=
  match o with Some x => f x | None => [] end.
Definition each {A} (f : A -> list node) (l : list A) : list node := flat_map f l.

(** An element that is there only if it has content. *)
Definition unless_empty (nm : string) (kids : list node) : list node :=
  match kids with [] => [] | _ => inside nm kids end.

Definition Status_element (r : Status) : list node :=
  inside "STATUS" (
    number "CODE" (Status_Code r) ++
    text "SEVERITY" (Status_Severity r) ++
    opt_text "MESSAGE" (Status_Message r)).

Definition BankAcct_element (nm : string) (r : BankAcct) : list node :=
  inside nm (
    text "BANKID" (BankAcct_BankID r) ++
    opt_text "BRANCHID" (BankAcct_BranchID r) ++
    text "ACCTID" (BankAcct_AcctID r) ++
    choice "ACCTTYPE" enum_acctType (BankAcct_AcctType r) ++
    opt_text "ACCTKEY" (BankAcct_AcctKey r)).

Definition CCAcct_element (nm : string) (r : CCAcct) : list node :=
  inside nm (
    text "ACCTID" (CCAcct_AcctID r) ++
    opt_text "ACCTKEY" (CCAcct_AcctKey r)).

Definition InvAcct_element (nm : string) (r : InvAcct) : list node :=
  inside nm (
    text "BROKERID" (InvAcct_BrokerID r) ++
    text "ACCTID" (InvAcct_AcctID r)).

Definition Currency_element (nm : string) (r : Currency) : list node :=
  inside nm (
    amount "CURRATE" (Currency_CurRate r) ++
    text "CURSYM" (Currency_CurSym r)).

Definition SecurityID_element (r : SecurityID) : list node :=
  inside "SECID" (
    text "UNIQUEID" (SecurityID_UniqueID r) ++
    text "UNIQUEIDTYPE" (SecurityID_UniqueIDType r)).

Definition SecurityRequest_element (r : SecurityRequest) : list node :=
  inside "SECRQ" (
    given SecurityID_element (SecurityRequest_SecID r) ++
    opt_text "TICKER" (SecurityRequest_Ticker r) ++
    opt_text "FIID" (SecurityRequest_FiID r)).

Definition SecListRequest_element (r : SecListRequest) : list node :=
  inside "SECLISTTRNRQ" (
    text "TRNUID" (SecListRequest_TrnUID r) ++
    opt_text "CLTCOOKIE" (SecListRequest_CltCookie r) ++
    opt_text "TAN" (SecListRequest_TAN r) ++
    inside "SECLISTRQ" (
      each SecurityRequest_element (SecListRequest_Securities r))).

Definition SecListResponse_element (r : SecListResponse) : list node :=
  inside "SECLISTTRNRS" (
    text "TRNUID" (SecListResponse_TrnUID r) ++
    Status_element (SecListResponse_Status r) ++
    opt_text "CLTCOOKIE" (SecListResponse_CltCookie r)).

Definition SecInfo_element (r : SecInfo) : list node :=
  inside "SECINFO" (
    SecurityID_element (SecInfo_SecID r) ++
    text "SECNAME" (SecInfo_SecName r) ++
    opt_text "TICKER" (SecInfo_Ticker r) ++
    opt_text "FIID" (SecInfo_FiID r) ++
    opt_text "RATING" (SecInfo_Rating r) ++
    amount "UNITPRICE" (SecInfo_UnitPrice r) ++
    given (date "DTASOF") (SecInfo_DtAsOf r) ++
    given (Currency_element "CURRENCY") (SecInfo_Currency r) ++
    opt_text "MEMO" (SecInfo_Memo r)).

Definition DebtInfo_element (r : DebtInfo) : list node :=
  inside "DEBTINFO" (
    SecInfo_element (DebtInfo_SecInfo r) ++
    amount "PARVALUE" (DebtInfo_ParValue r) ++
    choice "DEBTTYPE" enum_debtType (DebtInfo_DebtType r) ++
    choice "DEBTCLASS" enum_debtClass (DebtInfo_DebtClass r) ++
    amount "COUPONRT" (DebtInfo_CouponRate r) ++
    given (date "DTCOUPON") (DebtInfo_DtCoupon r) ++
    choice "COUPONFREQ" enum_couponFreq (DebtInfo_CouponFreq r) ++
    amount "CALLPRICE" (DebtInfo_CallPrice r) ++
    amount "YIELDTOCALL" (DebtInfo_YieldToCall r) ++
    given (date "DTCALL") (DebtInfo_DtCall r) ++
    choice "CALLTYPE" enum_callType (DebtInfo_CallType r) ++
    amount "YIELDTOMAT" (DebtInfo_YieldToMat r) ++
    given (date "DTMAT") (DebtInfo_DtMat r) ++
    choice "ASSETCLASS" enum_assetClass (DebtInfo_AssetClass r) ++
    opt_text "FIASSETCLASS" (DebtInfo_FiAssetClass r)).

Definition AssetPortion_element (r : AssetPortion) : list node :=
  inside "PORTION" (
    choice "ASSETCLASS" enum_assetClass (AssetPortion_AssetClass r) ++
    amount "PERCENT" (AssetPortion_Percent r)).

Definition FiAssetPortion_element (r : FiAssetPortion) : list node :=
  inside "FIPORTION" (
    opt_text "FIASSETCLASS" (FiAssetPortion_FiAssetClass r) ++
    amount "PERCENT" (FiAssetPortion_Percent r)).

Definition MFInfo_element (r : MFInfo) : list node :=
  inside "MFINFO" (
    SecInfo_element (MFInfo_SecInfo r) ++
    choice "MFTYPE" enum_mfType (MFInfo_MfType r) ++
    amount "YIELD" (MFInfo_Yield r) ++
    given (date "DTYIELDASOF") (MFInfo_DtYieldAsOf r) ++
    inside "MFASSETCLASS" (
      each AssetPortion_element (MFInfo_AssetClasses r)) ++
    inside "FIMFASSETCLASS" (
      each FiAssetPortion_element (MFInfo_FiAssetClasses r))).

Definition OptInfo_element (r : OptInfo) : list node :=
  inside "OPTINFO" (
    SecInfo_element (OptInfo_SecInfo r) ++
    choice "OPTTYPE" enum_optType (OptInfo_OptType r) ++
    amount "STRIKEPRICE" (OptInfo_StrikePrice r) ++
    date "DTEXPIRE" (OptInfo_DtExpire r) ++
    number "SHPERCTRCT" (OptInfo_ShPerCtrct r) ++
    given SecurityID_element (OptInfo_SecID r) ++
    choice "ASSETCLASS" enum_assetClass (OptInfo_AssetClass r) ++
    opt_text "FIASSETCLASS" (OptInfo_FiAssetClass r)).

Definition OtherInfo_element (r : OtherInfo) : list node :=
  inside "OTHERINFO" (
    SecInfo_element (OtherInfo_SecInfo r) ++
    opt_text "TYPEDESC" (OtherInfo_TypeDesc r) ++
    choice "ASSETCLASS" enum_assetClass (OtherInfo_AssetClass r) ++
    opt_text "FIASSETCLASS" (OtherInfo_FiAssetClass r)).

Definition StockInfo_element (r : StockInfo) : list node :=
  inside "STOCKINFO" (
    SecInfo_element (StockInfo_SecInfo r) ++
    choice "STOCKTYPE" enum_stockType (StockInfo_StockType r) ++
    amount "YIELD" (StockInfo_Yield r) ++
    given (date "DTYIELDASOF") (StockInfo_DtYieldAsOf r) ++
    choice "ASSETCLASS" enum_assetClass (StockInfo_AssetClass r) ++
    opt_text "FIASSETCLASS" (StockInfo_FiAssetClass r)).

Definition Security_element (r : Security) : list node :=
  match r with
  | Security_DebtInfo x => DebtInfo_element x
  | Security_MFInfo x => MFInfo_element x
  | Security_OptInfo x => OptInfo_element x
  | Security_OtherInfo x => OtherInfo_element x
  | Security_StockInfo x => StockInfo_element x
  end.

Definition SecurityList_element (r : SecurityList) : list node :=
  inside "SECLIST" (
    each Security_element (SecurityList_Securities r)).

Definition SignonRequest_element (r : SignonRequest) : list node :=
  inside "SONRQ" (
    date "DTCLIENT" (SignonRequest_DtClient r) ++
    text "USERID" (SignonRequest_UserID r) ++
    opt_text "USERPASS" (SignonRequest_UserPass r) ++
    opt_text "USERKEY" (SignonRequest_UserKey r) ++
    opt_flag "GENUSERKEY" (SignonRequest_GenUserKey r) ++
    text "LANGUAGE" (SignonRequest_Language r) ++
    inside "FI" (
      text "ORG" (SignonRequest_Org r) ++
      text "FID" (SignonRequest_Fid r)) ++
    text "APPID" (SignonRequest_AppID r) ++
    text "APPVER" (SignonRequest_AppVer r) ++
    opt_text "CLIENTUID" (SignonRequest_ClientUID r)).

Definition SignonResponse_element (r : SignonResponse) : list node :=
  inside "SONRS" (
    Status_element (SignonResponse_Status r) ++
    date "DTSERVER" (SignonResponse_DtServer r) ++
    opt_text "USERKEY" (SignonResponse_UserKey r) ++
    given (date "TSKEYEXPIRE") (SignonResponse_TsKeyExpire r) ++
    text "LANGUAGE" (SignonResponse_Language r) ++
    given (date "DTPROFUP") (SignonResponse_DtProfUp r) ++
    given (date "DTACCTUP") (SignonResponse_DtAcctUp r) ++
    inside "FI" (
      text "ORG" (SignonResponse_Org r) ++
      text "FID" (SignonResponse_Fid r)) ++
    opt_text "SESSCOOKIE" (SignonResponse_SessCookie r) ++
    opt_text "ACCESSKEY" (SignonResponse_AccessKey r)).

Definition AcctInfoRequest_element (r : AcctInfoRequest) : list node :=
  inside "ACCTINFOTRNRQ" (
    text "TRNUID" (AcctInfoRequest_TrnUID r) ++
    opt_text "CLTCOOKIE" (AcctInfoRequest_CltCookie r) ++
    opt_text "TAN" (AcctInfoRequest_TAN r) ++
    inside "ACCTINFORQ" (
      date "DTACCTUP" (AcctInfoRequest_DtAcctUp r))).

Definition HolderInfo_element (nm : string) (r : HolderInfo) : list node :=
  inside nm (
    text "FIRSTNAME" (HolderInfo_FirstName r) ++
    opt_text "MIDDLENAME" (HolderInfo_MiddleName r) ++
    text "LASTNAME" (HolderInfo_LastName r) ++
    text "ADDR1" (HolderInfo_Addr1 r) ++
    opt_text "ADDR2" (HolderInfo_Addr2 r) ++
    opt_text "ADDR3" (HolderInfo_Addr3 r) ++
    text "CITY" (HolderInfo_City r) ++
    text "STATE" (HolderInfo_State r) ++
    text "POSTALCODE" (HolderInfo_PostalCode r) ++
    opt_text "COUNTRY" (HolderInfo_Country r) ++
    opt_text "DAYPHONE" (HolderInfo_DayPhone r) ++
    opt_text "EVEPHONE" (HolderInfo_EvePhone r) ++
    opt_text "EMAIL" (HolderInfo_Email r) ++
    choice "HOLDERTYPE" enum_holderType (HolderInfo_HolderType r)).

Definition BankAcctInfo_element (r : BankAcctInfo) : list node :=
  inside "BANKACCTINFO" (
    BankAcct_element "BANKACCTFROM" (BankAcctInfo_BankAcctFrom r) ++
    flag "SUPTXDL" (BankAcctInfo_SupTxDl r) ++
    flag "XFERSRC" (BankAcctInfo_XferSrc r) ++
    flag "XFERDEST" (BankAcctInfo_XferDest r) ++
    date "MATURITYDATE" (BankAcctInfo_MaturityDate r) ++
    amount "MATURITYAMOUNT" (BankAcctInfo_MaturityAmt r) ++
    amount "MINBALREQ" (BankAcctInfo_MinBalReq r) ++
    choice "ACCTCLASSIFICATION" enum_acctClassification (BankAcctInfo_AcctClassification r) ++
    amount "OVERDRAFTLIMIT" (BankAcctInfo_OverdraftLimit r) ++
    choice "SVCSTATUS" enum_svcStatus (BankAcctInfo_SvcStatus r)).

Definition CCAcctInfo_element (r : CCAcctInfo) : list node :=
  inside "CCACCTINFO" (
    CCAcct_element "CCACCTFROM" (CCAcctInfo_CCAcctFrom r) ++
    flag "SUPTXDL" (CCAcctInfo_SupTxDl r) ++
    flag "XFERSRC" (CCAcctInfo_XferSrc r) ++
    flag "XFERDEST" (CCAcctInfo_XferDest r) ++
    choice "ACCTCLASSIFICATION" enum_acctClassification (CCAcctInfo_AcctClassification r) ++
    choice "SVCSTATUS" enum_svcStatus (CCAcctInfo_SvcStatus r)).

Definition InvAcctInfo_element (r : InvAcctInfo) : list node :=
  inside "INVACCTINFO" (
    InvAcct_element "INVACCTFROM" (InvAcctInfo_InvAcctFrom r) ++
    choice "USPRODUCTTYPE" enum_usProductType (InvAcctInfo_UsProductType r) ++
    flag "CHECKING" (InvAcctInfo_Checking r) ++
    choice "SVCSTATUS" enum_svcStatus (InvAcctInfo_SvcStatus r) ++
    choice "INVACCTTYPE" enum_holderType (InvAcctInfo_InvAcctType r) ++
    opt_text "OPTIONLEVEL" (InvAcctInfo_OptionLevel r)).

Definition AcctInfo_element (r : AcctInfo) : list node :=
  inside "ACCTINFO" (
    opt_text "NAME" (AcctInfo_Name r) ++
    opt_text "DESC" (AcctInfo_Desc r) ++
    opt_text "PHONE" (AcctInfo_Phone r) ++
    inside "HOLDERINFO" (
      HolderInfo_element "PRIMARYHOLDER" (AcctInfo_PrimaryHolder r) ++
      HolderInfo_element "SECONDARYHOLDER" (AcctInfo_SecondaryHolder r)) ++
    given BankAcctInfo_element (AcctInfo_BankAcctInfo r) ++
    given CCAcctInfo_element (AcctInfo_CCAcctInfo r) ++
    given InvAcctInfo_element (AcctInfo_InvAcctInfo r)).

Definition AcctInfoResponse_element (r : AcctInfoResponse) : list node :=
  inside "ACCTINFOTRNRS" (
    text "TRNUID" (AcctInfoResponse_TrnUID r) ++
    Status_element (AcctInfoResponse_Status r) ++
    opt_text "CLTCOOKIE" (AcctInfoResponse_CltCookie r) ++
    inside "ACCTINFORS" (
      date "DTACCTUP" (AcctInfoResponse_DtAcctUp r) ++
      each AcctInfo_element (AcctInfoResponse_AcctInfo r))).

Definition StatementRequest_element (r : StatementRequest) : list node :=
  inside "STMTTRNRQ" (
    text "TRNUID" (StatementRequest_TrnUID r) ++
    opt_text "CLTCOOKIE" (StatementRequest_CltCookie r) ++
    opt_text "TAN" (StatementRequest_TAN r) ++
    inside "STMTRQ" (
      BankAcct_element "BANKACCTFROM" (StatementRequest_BankAcctFrom r) ++
      inside "INCTRAN" (
        given (date "DTSTART") (StatementRequest_DtStart r) ++
        given (date "DTEND") (StatementRequest_DtEnd r) ++
        flag "INCLUDE" (StatementRequest_Include r)) ++
      opt_flag "INCLUDEPENDING" (StatementRequest_IncludePending r) ++
      opt_flag "INCTRANIMG" (StatementRequest_IncTranImg r))).

Definition Payee_element (r : Payee) : list node :=
  inside "PAYEE" (
    text "NAME" (Payee_Name r) ++
    text "ADDR1" (Payee_Addr1 r) ++
    opt_text "ADDR2" (Payee_Addr2 r) ++
    opt_text "ADDR3" (Payee_Addr3 r) ++
    text "CITY" (Payee_City r) ++
    text "STATE" (Payee_State r) ++
    text "POSTALCODE" (Payee_PostalCode r) ++
    opt_text "COUNTRY" (Payee_Country r) ++
    text "PHONE" (Payee_Phone r)).

Definition ImageData_element (r : ImageData) : list node :=
  inside "IMAGEDATA" (
    choice "IMAGETYPE" enum_imageType (ImageData_ImageType r) ++
    text "IMAGEREF" (ImageData_ImageRef r) ++
    choice "IMAGEREFTYPE" enum_imageRefType (ImageData_ImageRefType r) ++
    opt_number "IMAGEDELAY" (ImageData_ImageDelay r) ++
    given (date "DTIMAGEAVAIL") (ImageData_DtImageAvail r) ++
    opt_number "IMAGETTL" (ImageData_ImageTTL r) ++
    choice "CHECKSUP" enum_checkSup (ImageData_CheckSup r)).

Definition Transaction_element (r : Transaction) : list node :=
  inside "STMTTRN" (
    choice "TRNTYPE" enum_trnType (Transaction_TrnType r) ++
    date "DTPOSTED" (Transaction_DtPosted r) ++
    given (date "DTUSER") (Transaction_DtUser r) ++
    given (date "DTAVAIL") (Transaction_DtAvail r) ++
    amount "TRNAMT" (Transaction_TrnAmt r) ++
    text "FITID" (Transaction_FiTID r) ++
    opt_text "CORRECTFITID" (Transaction_CorrectFiTID r) ++
    choice "CORRECTACTION" enum_correctAction (Transaction_CorrectAction r) ++
    opt_text "SRVRTID" (Transaction_SrvrTID r) ++
    opt_text "CHECKNUM" (Transaction_CheckNum r) ++
    opt_text "REFNUM" (Transaction_RefNum r) ++
    opt_number "SIC" (Transaction_SIC r) ++
    opt_text "PAYEEID" (Transaction_PayeeID r) ++
    opt_text "NAME" (Transaction_Name r) ++
    given Payee_element (Transaction_Payee r) ++
    opt_text "EXTDNAME" (Transaction_ExtdName r) ++
    given (BankAcct_element "BANKACCTTO") (Transaction_BankAcctTo r) ++
    given (CCAcct_element "CCACCTTO") (Transaction_CCAcctTo r) ++
    opt_text "MEMO" (Transaction_Memo r) ++
    each ImageData_element (Transaction_ImageData r) ++
    given (Currency_element "CURRENCY") (Transaction_Currency r) ++
    given (Currency_element "ORIGCURRENCY") (Transaction_OrigCurrency r) ++
    choice "INV401KSOURCE" enum_inv401kSource (Transaction_Inv401kSource r)).

Definition TransactionList_element (r : TransactionList) : list node :=
  inside "BANKTRANLIST" (
    date "DTSTART" (TransactionList_DtStart r) ++
    date "DTEND" (TransactionList_DtEnd r) ++
    each Transaction_element (TransactionList_Transactions r)).

Definition PendingTransaction_element (r : PendingTransaction) : list node :=
  inside "STMTTRNP" (
    choice "TRNTYPE" enum_trnType (PendingTransaction_TrnType r) ++
    date "DTTRAN" (PendingTransaction_DtTran r) ++
    given (date "DTEXPIRE") (PendingTransaction_DtExpire r) ++
    amount "TRNAMT" (PendingTransaction_TrnAmt r) ++
    opt_text "REFNUM" (PendingTransaction_RefNum r) ++
    opt_text "NAME" (PendingTransaction_Name r) ++
    opt_text "EXTDNAME" (PendingTransaction_ExtdName r) ++
    opt_text "MEMO" (PendingTransaction_Memo r) ++
    each ImageData_element (PendingTransaction_ImageData r) ++
    Currency_element "CURRENCY" (PendingTransaction_Currency r) ++
    Currency_element "ORIGCURRENCY" (PendingTransaction_OrigCurrency r)).

Definition PendingTransactionList_element (r : PendingTransactionList) : list node :=
  inside "BANKTRANLISTP" (
    date "DTASOF" (PendingTransactionList_DtAsOf r) ++
    each PendingTransaction_element (PendingTransactionList_Transactions r)).

Definition Balance_element (r : Balance) : list node :=
  inside "BAL" (
    text "NAME" (Balance_Name r) ++
    text "DESC" (Balance_Desc r) ++
    choice "BALTYPE" enum_balType (Balance_BalType r) ++
    amount "VALUE" (Balance_Value r) ++
    given (date "DTASOF") (Balance_DtAsOf r) ++
    given (Currency_element "CURRENCY") (Balance_Currency r)).

Definition StatementResponse_element (r : StatementResponse) : list node :=
  inside "STMTTRNRS" (
    text "TRNUID" (StatementResponse_TrnUID r) ++
    Status_element (StatementResponse_Status r) ++
    opt_text "CLTCOOKIE" (StatementResponse_CltCookie r) ++
    inside "STMTRS" (
      text "CURDEF" (StatementResponse_CurDef r) ++
      BankAcct_element "BANKACCTFROM" (StatementResponse_BankAcctFrom r) ++
      given TransactionList_element (StatementResponse_BankTranList r) ++
      given PendingTransactionList_element (StatementResponse_BankTranListP r) ++
      inside "LEDGERBAL" (
        amount "BALAMT" (StatementResponse_BalAmt r) ++
        date "DTASOF" (StatementResponse_DtAsOf r)) ++
      unless_empty "AVAILBAL" (
        given (amount "BALAMT") (StatementResponse_AvailBalAmt r) ++
        given (date "DTASOF") (StatementResponse_AvailDtAsOf r)) ++
      given (amount "CASHADVBALAMT") (StatementResponse_CashAdvBalAmt r) ++
      given (amount "INTRATE") (StatementResponse_IntRate r) ++
      inside "BALLIST" (
        each Balance_element (StatementResponse_BalList r)) ++
      opt_text "MKTGINFO" (StatementResponse_MktgInfo r))).

Definition CCStatementRequest_element (r : CCStatementRequest) : list node :=
  inside "CCSTMTTRNRQ" (
    text "TRNUID" (CCStatementRequest_TrnUID r) ++
    opt_text "CLTCOOKIE" (CCStatementRequest_CltCookie r) ++
    opt_text "TAN" (CCStatementRequest_TAN r) ++
    inside "CCSTMTRQ" (
      CCAcct_element "CCACCTFROM" (CCStatementRequest_CCAcctFrom r) ++
      inside "INCTRAN" (
        given (date "DTSTART") (CCStatementRequest_DtStart r) ++
        given (date "DTEND") (CCStatementRequest_DtEnd r) ++
        flag "INCLUDE" (CCStatementRequest_Include r)) ++
      opt_flag "INCLUDEPENDING" (CCStatementRequest_IncludePending r) ++
      opt_flag "INCTRANIMG" (CCStatementRequest_IncTranImg r))).

Definition CCStatementResponse_element (r : CCStatementResponse) : list node :=
  inside "CCSTMTTRNRS" (
    text "TRNUID" (CCStatementResponse_TrnUID r) ++
    Status_element (CCStatementResponse_Status r) ++
    opt_text "CLTCOOKIE" (CCStatementResponse_CltCookie r) ++
    inside "CCSTMTRS" (
      text "CURDEF" (CCStatementResponse_CurDef r) ++
      CCAcct_element "CCACCTFROM" (CCStatementResponse_CCAcctFrom r) ++
      given TransactionList_element (CCStatementResponse_BankTranList r) ++
      inside "LEDGERBAL" (
        amount "BALAMT" (CCStatementResponse_BalAmt r) ++
        date "DTASOF" (CCStatementResponse_DtAsOf r)) ++
      unless_empty "AVAILBAL" (
        given (amount "BALAMT") (CCStatementResponse_AvailBalAmt r) ++
        given (date "DTASOF") (CCStatementResponse_AvailDtAsOf r)) ++
      amount "CASHADVBALAMT" (CCStatementResponse_CashAdvBalAmt r) ++
      amount "INTRATEPURCH" (CCStatementResponse_IntRatePurch r) ++
      amount "INTRATECASH" (CCStatementResponse_IntRateCash r) ++
      amount "INTRATEXFER" (CCStatementResponse_IntRateXfer r) ++
      inside "REWARDINFO" (
        opt_text "NAME" (CCStatementResponse_RewardName r) ++
        amount "REWARDBAL" (CCStatementResponse_RewardBal r) ++
        amount "REWARDEARNED" (CCStatementResponse_RewardEarned r)) ++
      inside "BALLIST" (
        each Balance_element (CCStatementResponse_BalList r)) ++
      opt_text "MKTGINFO" (CCStatementResponse_MktgInfo r))).

Definition InvStatementRequest_element (r : InvStatementRequest) : list node :=
  inside "INVSTMTTRNRQ" (
    text "TRNUID" (InvStatementRequest_TrnUID r) ++
    opt_text "CLTCOOKIE" (InvStatementRequest_CltCookie r) ++
    opt_text "TAN" (InvStatementRequest_TAN r) ++
    inside "INVSTMTRQ" (
      InvAcct_element "INVACCTFROM" (InvStatementRequest_InvAcctFrom r) ++
      inside "INCTRAN" (
        given (date "DTSTART") (InvStatementRequest_DtStart r) ++
        given (date "DTEND") (InvStatementRequest_DtEnd r) ++
        flag "INCLUDE" (InvStatementRequest_Include r)) ++
      flag "INCOO" (InvStatementRequest_IncludeOO r) ++
      inside "INCPOS" (
        given (date "DTASOF") (InvStatementRequest_PosDtAsOf r) ++
        flag "INCLUDE" (InvStatementRequest_IncludePos r)) ++
      flag "INCBAL" (InvStatementRequest_IncludeBalance r) ++
      opt_flag "INC401K" (InvStatementRequest_Include401K r) ++
      opt_flag "INC401KBAL" (InvStatementRequest_Include401KBal r) ++
      opt_flag "INCTRANIMAGE" (InvStatementRequest_IncludeTranImage r))).

Definition InvTran_element (r : InvTran) : list node :=
  inside "INVTRAN" (
    text "FITID" (InvTran_FiTID r) ++
    opt_text "SRVRTID" (InvTran_SrvrTID r) ++
    date "DTTRADE" (InvTran_DtTrade r) ++
    given (date "DTSETTLE") (InvTran_DtSettle r) ++
    opt_text "REVERSALFITID" (InvTran_ReversalFiTID r) ++
    opt_text "MEMO" (InvTran_Memo r)).

Definition InvBuy_element (r : InvBuy) : list node :=
  inside "INVBUY" (
    InvTran_element (InvBuy_InvTran r) ++
    SecurityID_element (InvBuy_SecID r) ++
    amount "UNITS" (InvBuy_Units r) ++
    amount "UNITPRICE" (InvBuy_UnitPrice r) ++
    amount "MARKUP" (InvBuy_Markup r) ++
    amount "COMMISSION" (InvBuy_Commission r) ++
    amount "TAXES" (InvBuy_Taxes r) ++
    amount "FEES" (InvBuy_Fees r) ++
    amount "LOAD" (InvBuy_Load r) ++
    amount "TOTAL" (InvBuy_Total r) ++
    Currency_element "CURRENCY" (InvBuy_Currency r) ++
    Currency_element "ORIGCURRENCY" (InvBuy_OrigCurrency r) ++
    choice "SUBACCTSEC" enum_subAcctType (InvBuy_SubAcctSec r) ++
    choice "SUBACCTFUND" enum_subAcctType (InvBuy_SubAcctFund r) ++
    opt_text "LOANID" (InvBuy_LoanID r) ++
    amount "LOANPRINCIPAL" (InvBuy_LoanPrincipal r) ++
    amount "LOANINTEREST" (InvBuy_LoanInterest r) ++
    choice "INV401KSOURCE" enum_inv401kSource (InvBuy_Inv401kSource r) ++
    given (date "DTPAYROLL") (InvBuy_DtPayroll r) ++
    opt_flag "PRIORYEARCONTRIB" (InvBuy_PriorYearContrib r)).

Definition InvSell_element (r : InvSell) : list node :=
  inside "INVSELL" (
    InvTran_element (InvSell_InvTran r) ++
    SecurityID_element (InvSell_SecID r) ++
    amount "UNITS" (InvSell_Units r) ++
    amount "UNITPRICE" (InvSell_UnitPrice r) ++
    amount "MARKDOWN" (InvSell_Markdown r) ++
    amount "COMMISSION" (InvSell_Commission r) ++
    amount "TAXES" (InvSell_Taxes r) ++
    amount "FEES" (InvSell_Fees r) ++
    amount "LOAD" (InvSell_Load r) ++
    amount "WITHHOLDING" (InvSell_Withholding r) ++
    opt_flag "TAXEXEMPT" (InvSell_TaxExempt r) ++
    amount "TOTAL" (InvSell_Total r) ++
    amount "GAIN" (InvSell_Gain r) ++
    Currency_element "CURRENCY" (InvSell_Currency r) ++
    Currency_element "ORIGCURRENCY" (InvSell_OrigCurrency r) ++
    choice "SUBACCTSEC" enum_subAcctType (InvSell_SubAcctSec r) ++
    choice "SUBACCTFUND" enum_subAcctType (InvSell_SubAcctFund r) ++
    opt_text "LOANID" (InvSell_LoanID r) ++
    amount "STATEWITHHOLDING" (InvSell_StateWithholding r) ++
    amount "PENALTY" (InvSell_Penalty r) ++
    choice "INV401KSOURCE" enum_inv401kSource (InvSell_Inv401kSource r)).

Definition BuyDebt_element (r : BuyDebt) : list node :=
  inside "BUYDEBT" (
    InvBuy_element (BuyDebt_InvBuy r) ++
    amount "ACCRDINT" (BuyDebt_AccrdInt r)).

Definition BuyMF_element (r : BuyMF) : list node :=
  inside "BUYMF" (
    InvBuy_element (BuyMF_InvBuy r) ++
    choice "BUYTYPE" enum_buyType (BuyMF_BuyType r) ++
    opt_text "RELFITID" (BuyMF_RelFiTID r)).

Definition BuyOpt_element (r : BuyOpt) : list node :=
  inside "BUYOPT" (
    InvBuy_element (BuyOpt_InvBuy r) ++
    choice "OPTBUYTYPE" enum_optBuyType (BuyOpt_OptBuyType r) ++
    number "SHPERCTRCT" (BuyOpt_ShPerCtrct r)).

Definition BuyOther_element (r : BuyOther) : list node :=
  inside "BUYOTHER" (
    InvBuy_element (BuyOther_InvBuy r)).

Definition BuyStock_element (r : BuyStock) : list node :=
  inside "BUYSTOCK" (
    InvBuy_element (BuyStock_InvBuy r) ++
    choice "BUYTYPE" enum_buyType (BuyStock_BuyType r)).

Definition ClosureOpt_element (r : ClosureOpt) : list node :=
  inside "CLOSUREOPT" (
    InvTran_element (ClosureOpt_InvTran r) ++
    SecurityID_element (ClosureOpt_SecID r) ++
    choice "OPTACTION" enum_optAction (ClosureOpt_OptAction r) ++
    amount "UNITS" (ClosureOpt_Units r) ++
    number "SHPERCTRCT" (ClosureOpt_ShPerCtrct r) ++
    choice "SUBACCTSEC" enum_subAcctType (ClosureOpt_SubAcctSec r) ++
    opt_text "RELFITID" (ClosureOpt_RelFiTID r) ++
    amount "GAIN" (ClosureOpt_Gain r)).

Definition Income_element (r : Income) : list node :=
  inside "INCOME" (
    InvTran_element (Income_InvTran r) ++
    SecurityID_element (Income_SecID r) ++
    choice "INCOMETYPE" enum_incomeType (Income_IncomeType r) ++
    amount "TOTAL" (Income_Total r) ++
    choice "SUBACCTSEC" enum_subAcctType (Income_SubAcctSec r) ++
    choice "SUBACCTFUND" enum_subAcctType (Income_SubAcctFund r) ++
    opt_flag "TAXEXEMPT" (Income_TaxExempt r) ++
    amount "WITHHOLDING" (Income_Withholding r) ++
    Currency_element "CURRENCY" (Income_Currency r) ++
    Currency_element "ORIGCURRENCY" (Income_OrigCurrency r) ++
    choice "INV401KSOURCE" enum_inv401kSource (Income_Inv401kSource r)).

Definition InvExpense_element (r : InvExpense) : list node :=
  inside "INVEXPENSE" (
    InvTran_element (InvExpense_InvTran r) ++
    SecurityID_element (InvExpense_SecID r) ++
    amount "TOTAL" (InvExpense_Total r) ++
    choice "SUBACCTSEC" enum_subAcctType (InvExpense_SubAcctSec r) ++
    choice "SUBACCTFUND" enum_subAcctType (InvExpense_SubAcctFund r) ++
    Currency_element "CURRENCY" (InvExpense_Currency r) ++
    Currency_element "ORIGCURRENCY" (InvExpense_OrigCurrency r) ++
    choice "INV401KSOURCE" enum_inv401kSource (InvExpense_Inv401kSource r)).

Definition JrnlFund_element (r : JrnlFund) : list node :=
  inside "JRNLFUND" (
    InvTran_element (JrnlFund_InvTran r) ++
    amount "TOTAL" (JrnlFund_Total r) ++
    choice "SUBACCTFROM" enum_subAcctType (JrnlFund_SubAcctFrom r) ++
    choice "SUBACCTTO" enum_subAcctType (JrnlFund_SubAcctTo r)).

Definition JrnlSec_element (r : JrnlSec) : list node :=
  inside "JRNLSEC" (
    InvTran_element (JrnlSec_InvTran r) ++
    SecurityID_element (JrnlSec_SecID r) ++
    choice "SUBACCTFROM" enum_subAcctType (JrnlSec_SubAcctFrom r) ++
    choice "SUBACCTTO" enum_subAcctType (JrnlSec_SubAcctTo r) ++
    amount "UNITS" (JrnlSec_Units r)).

Definition MarginInterest_element (r : MarginInterest) : list node :=
  inside "MARGININTEREST" (
    InvTran_element (MarginInterest_InvTran r) ++
    amount "TOTAL" (MarginInterest_Total r) ++
    choice "SUBACCTFUND" enum_subAcctType (MarginInterest_SubAcctFund r) ++
    Currency_element "CURRENCY" (MarginInterest_Currency r) ++
    Currency_element "ORIGCURRENCY" (MarginInterest_OrigCurrency r)).

Definition Reinvest_element (r : Reinvest) : list node :=
  inside "REINVEST" (
    InvTran_element (Reinvest_InvTran r) ++
    SecurityID_element (Reinvest_SecID r) ++
    choice "INCOMETYPE" enum_incomeType (Reinvest_IncomeType r) ++
    amount "TOTAL" (Reinvest_Total r) ++
    choice "SUBACCTSEC" enum_subAcctType (Reinvest_SubAcctSec r) ++
    amount "UNITS" (Reinvest_Units r) ++
    amount "UNITPRICE" (Reinvest_UnitPrice r) ++
    amount "COMMISSION" (Reinvest_Commission r) ++
    amount "TAXES" (Reinvest_Taxes r) ++
    amount "FEES" (Reinvest_Fees r) ++
    amount "LOAD" (Reinvest_Load r) ++
    opt_flag "TAXEXEMPT" (Reinvest_TaxExempt r) ++
    Currency_element "CURRENCY" (Reinvest_Currency r) ++
    Currency_element "ORIGCURRENCY" (Reinvest_OrigCurrency r) ++
    choice "INV401KSOURCE" enum_inv401kSource (Reinvest_Inv401kSource r)).

Definition RetOfCap_element (r : RetOfCap) : list node :=
  inside "RETOFCAP" (
    InvTran_element (RetOfCap_InvTran r) ++
    SecurityID_element (RetOfCap_SecID r) ++
    amount "TOTAL" (RetOfCap_Total r) ++
    choice "SUBACCTSEC" enum_subAcctType (RetOfCap_SubAcctSec r) ++
    choice "SUBACCTFUND" enum_subAcctType (RetOfCap_SubAcctFund r) ++
    Currency_element "CURRENCY" (RetOfCap_Currency r) ++
    Currency_element "ORIGCURRENCY" (RetOfCap_OrigCurrency r) ++
    choice "INV401KSOURCE" enum_inv401kSource (RetOfCap_Inv401kSource r)).

Definition SellDebt_element (r : SellDebt) : list node :=
  inside "SELLDEBT" (
    InvSell_element (SellDebt_InvSell r) ++
    choice "SELLREASON" enum_sellReason (SellDebt_SellReason r) ++
    amount "ACCRDINT" (SellDebt_AccrdInt r)).

Definition SellMF_element (r : SellMF) : list node :=
  inside "SELLMF" (
    InvSell_element (SellMF_InvSell r) ++
    choice "SELLTYPE" enum_sellType (SellMF_SellType r) ++
    amount "AVGCOSTBASIS" (SellMF_AvgCostBasis r) ++
    opt_text "RELFITID" (SellMF_RelFiTID r)).

Definition SellOpt_element (r : SellOpt) : list node :=
  inside "SELLOPT" (
    InvSell_element (SellOpt_InvSell r) ++
    choice "OPTSELLTYPE" enum_optSellType (SellOpt_OptSellType r) ++
    number "SHPERCTRCT" (SellOpt_ShPerCtrct r) ++
    opt_text "RELFITID" (SellOpt_RelFiTID r) ++
    choice "RELTYPE" enum_relType (SellOpt_RelType r) ++
    choice "SECURED" enum_secured (SellOpt_Secured r)).

Definition SellOther_element (r : SellOther) : list node :=
  inside "SELLOTHER" (
    InvSell_element (SellOther_InvSell r)).

Definition SellStock_element (r : SellStock) : list node :=
  inside "SELLSTOCK" (
    InvSell_element (SellStock_InvSell r) ++
    choice "SELLTYPE" enum_sellType (SellStock_SellType r)).

Definition Split_element (r : Split) : list node :=
  inside "SPLIT" (
    InvTran_element (Split_InvTran r) ++
    SecurityID_element (Split_SecID r) ++
    choice "SUBACCTSEC" enum_subAcctType (Split_SubAcctSec r) ++
    amount "OLDUNITS" (Split_OldUnits r) ++
    amount "NEWUNITS" (Split_NewUnits r) ++
    number "NUMERATOR" (Split_Numerator r) ++
    number "DENOMINATOR" (Split_Denominator r) ++
    Currency_element "CURRENCY" (Split_Currency r) ++
    Currency_element "ORIGCURRENCY" (Split_OrigCurrency r) ++
    amount "FRACCASH" (Split_FracCash r) ++
    choice "SUBACCTFUND" enum_subAcctType (Split_SubAcctFund r) ++
    choice "INV401KSOURCE" enum_inv401kSource (Split_Inv401kSource r)).

Definition Transfer_element (r : Transfer) : list node :=
  inside "TRANSFER" (
    InvTran_element (Transfer_InvTran r) ++
    SecurityID_element (Transfer_SecID r) ++
    choice "SUBACCTSEC" enum_subAcctType (Transfer_SubAcctSec r) ++
    amount "UNITS" (Transfer_Units r) ++
    choice "TFERACTION" enum_tferAction (Transfer_TferAction r) ++
    choice "POSTYPE" enum_posType (Transfer_PosType r) ++
    InvAcct_element "INVACCTFROM" (Transfer_InvAcctFrom r) ++
    amount "AVGCOSTBASIS" (Transfer_AvgCostBasis r) ++
    amount "UNITPRICE" (Transfer_UnitPrice r) ++
    given (date "DTPURCHASE") (Transfer_DtPurchase r) ++
    choice "INV401KSOURCE" enum_inv401kSource (Transfer_Inv401kSource r)).

Definition InvBankTransaction_element (r : InvBankTransaction) : list node :=
  inside "INVBANKTRAN" (
    each Transaction_element (InvBankTransaction_Transactions r) ++
    choice "SUBACCTFUND" enum_subAcctType (InvBankTransaction_SubAcctFund r)).

Definition InvTransaction_element (r : InvTransaction) : list node :=
  match r with
  | InvTransaction_BuyDebt x => BuyDebt_element x
  | InvTransaction_BuyMF x => BuyMF_element x
  | InvTransaction_BuyOpt x => BuyOpt_element x
  | InvTransaction_BuyOther x => BuyOther_element x
  | InvTransaction_BuyStock x => BuyStock_element x
  | InvTransaction_ClosureOpt x => ClosureOpt_element x
  | InvTransaction_Income x => Income_element x
  | InvTransaction_InvExpense x => InvExpense_element x
  | InvTransaction_JrnlFund x => JrnlFund_element x
  | InvTransaction_JrnlSec x => JrnlSec_element x
  | InvTransaction_MarginInterest x => MarginInterest_element x
  | InvTransaction_Reinvest x => Reinvest_element x
  | InvTransaction_RetOfCap x => RetOfCap_element x
  | InvTransaction_SellDebt x => SellDebt_element x
  | InvTransaction_SellMF x => SellMF_element x
  | InvTransaction_SellOpt x => SellOpt_element x
  | InvTransaction_SellOther x => SellOther_element x
  | InvTransaction_SellStock x => SellStock_element x
  | InvTransaction_Split x => Split_element x
  | InvTransaction_Transfer x => Transfer_element x
  end.

Definition InvTranList_element (r : InvTranList) : list node :=
  inside "INVTRANLIST" (
    date "DTSTART" (InvTranList_DtStart r) ++
    date "DTEND" (InvTranList_DtEnd r) ++
    each InvTransaction_element (InvTranList_InvTransactions r) ++
    each InvBankTransaction_element (InvTranList_BankTransactions r)).

Definition InvPosition_element (r : InvPosition) : list node :=
  inside "INVPOS" (
    SecurityID_element (InvPosition_SecID r) ++
    choice "HELDINACCT" enum_subAcctType (InvPosition_HeldInAcct r) ++
    choice "POSTYPE" enum_posType (InvPosition_PosType r) ++
    amount "UNITS" (InvPosition_Units r) ++
    amount "UNITPRICE" (InvPosition_UnitPrice r) ++
    amount "MKTVAL" (InvPosition_MktVal r) ++
    amount "AVGCOSTBASIS" (InvPosition_AvgCostBasis r) ++
    date "DTPRICEASOF" (InvPosition_DtPriceAsOf r) ++
    given (Currency_element "CURRENCY") (InvPosition_Currency r) ++
    opt_text "MEMO" (InvPosition_Memo r) ++
    choice "INV401KSOURCE" enum_inv401kSource (InvPosition_Inv401kSource r)).

Definition DebtPosition_element (r : DebtPosition) : list node :=
  inside "POSDEBT" (
    InvPosition_element (DebtPosition_InvPos r)).

Definition MFPosition_element (r : MFPosition) : list node :=
  inside "POSMF" (
    InvPosition_element (MFPosition_InvPos r) ++
    amount "UNITSSTREET" (MFPosition_UnitsStreet r) ++
    amount "UNITSUSER" (MFPosition_UnitsUser r) ++
    opt_flag "REINVDIV" (MFPosition_ReinvDiv r) ++
    opt_flag "REINVCG" (MFPosition_ReinvCG r)).

Definition OptPosition_element (r : OptPosition) : list node :=
  inside "POSOPT" (
    InvPosition_element (OptPosition_InvPos r) ++
    choice "SECURED" enum_secured (OptPosition_Secured r)).

Definition OtherPosition_element (r : OtherPosition) : list node :=
  inside "POSOTHER" (
    InvPosition_element (OtherPosition_InvPos r)).

Definition StockPosition_element (r : StockPosition) : list node :=
  inside "POSSTOCK" (
    InvPosition_element (StockPosition_InvPos r) ++
    amount "UNITSSTREET" (StockPosition_UnitsStreet r) ++
    amount "UNITSUSER" (StockPosition_UnitsUser r) ++
    opt_flag "REINVDIV" (StockPosition_ReinvDiv r)).

Definition InvBalance_element (r : InvBalance) : list node :=
  inside "INVBAL" (
    amount "AVAILCASH" (InvBalance_AvailCash r) ++
    amount "MARGINBALANCE" (InvBalance_MarginBalance r) ++
    amount "SHORTBALANCE" (InvBalance_ShortBalance r) ++
    amount "BUYPOWER" (InvBalance_BuyPower r) ++
    inside "BALLIST" (
      each Balance_element (InvBalance_BalList r))).

Definition OO_element (r : OO) : list node :=
  inside "OO" (
    text "FITID" (OO_FiTID r) ++
    opt_text "SRVRTID" (OO_SrvrTID r) ++
    SecurityID_element (OO_SecID r) ++
    date "DTPLACED" (OO_DtPlaced r) ++
    amount "UNITS" (OO_Units r) ++
    choice "SUBACCT" enum_subAcctType (OO_SubAcct r) ++
    choice "DURATION" enum_duration (OO_Duration r) ++
    choice "RESTRICTION" enum_restriction (OO_Restriction r) ++
    amount "MINUNITS" (OO_MinUnits r) ++
    amount "LIMITPRICE" (OO_LimitPrice r) ++
    amount "STOPPRICE" (OO_StopPrice r) ++
    opt_text "MEMO" (OO_Memo r) ++
    given (Currency_element "CURRENCY") (OO_Currency r) ++
    choice "INV401KSOURCE" enum_inv401kSource (OO_Inv401kSource r)).

Definition OOBuyDebt_element (r : OOBuyDebt) : list node :=
  inside "OOBUYDEBT" (
    OO_element (OOBuyDebt_OO r) ++
    flag "AUCTION" (OOBuyDebt_Auction r) ++
    given (date "DTAUCTION") (OOBuyDebt_DtAuction r)).

Definition OOBuyMF_element (r : OOBuyMF) : list node :=
  inside "OOBUYMF" (
    OO_element (OOBuyMF_OO r) ++
    choice "BUYTYPE" enum_buyType (OOBuyMF_BuyType r) ++
    choice "UNITTYPE" enum_unitType (OOBuyMF_UnitType r)).

Definition OOBuyOpt_element (r : OOBuyOpt) : list node :=
  inside "OOBUYOPT" (
    OO_element (OOBuyOpt_OO r) ++
    choice "OPTBUYTYPE" enum_optBuyType (OOBuyOpt_OptBuyType r)).

Definition OOBuyOther_element (r : OOBuyOther) : list node :=
  inside "OOBUYOTHER" (
    OO_element (OOBuyOther_OO r) ++
    choice "UNITTYPE" enum_unitType (OOBuyOther_UnitType r)).

Definition OOBuyStock_element (r : OOBuyStock) : list node :=
  inside "OOBUYSTOCK" (
    OO_element (OOBuyStock_OO r) ++
    choice "BUYTYPE" enum_buyType (OOBuyStock_BuyType r)).

Definition OOSellDebt_element (r : OOSellDebt) : list node :=
  inside "OOSELLDEBT" (
    OO_element (OOSellDebt_OO r)).

Definition OOSellMF_element (r : OOSellMF) : list node :=
  inside "OOSELLMF" (
    OO_element (OOSellMF_OO r) ++
    choice "SELLTYPE" enum_sellType (OOSellMF_SellType r) ++
    choice "UNITTYPE" enum_unitType (OOSellMF_UnitType r) ++
    flag "SELLALL" (OOSellMF_SellAll r)).

Definition OOSellOpt_element (r : OOSellOpt) : list node :=
  inside "OOSELLOPT" (
    OO_element (OOSellOpt_OO r) ++
    choice "OPTSELLTYPE" enum_optSellType (OOSellOpt_OptSellType r)).

Definition OOSellOther_element (r : OOSellOther) : list node :=
  inside "OOSELLOTHER" (
    OO_element (OOSellOther_OO r) ++
    choice "UNITTYPE" enum_unitType (OOSellOther_UnitType r)).

Definition OOSellStock_element (r : OOSellStock) : list node :=
  inside "OOSELLSTOCK" (
    OO_element (OOSellStock_OO r) ++
    choice "SELLTYPE" enum_sellType (OOSellStock_SellType r)).

Definition OOSwitchMF_element (r : OOSwitchMF) : list node :=
  inside "SWITCHMF" (
    OO_element (OOSwitchMF_OO r) ++
    SecurityID_element (OOSwitchMF_SecID r) ++
    choice "UNITTYPE" enum_unitType (OOSwitchMF_UnitType r) ++
    flag "SWITCHALL" (OOSwitchMF_SwitchAll r)).

Definition ContribSecurity_element (r : ContribSecurity) : list node :=
  inside "CONTRIBSECURITY" (
    SecurityID_element (ContribSecurity_SecID r) ++
    amount "PRETAXCONTRIBPCT" (ContribSecurity_PreTaxContribPct r) ++
    amount "PRETAXCONTRIBAMT" (ContribSecurity_PreTaxContribAmt r) ++
    amount "AFTERTAXCONTRIBPCT" (ContribSecurity_AfterTaxContribPct r) ++
    amount "AFTERTAXCONTRIBAMT" (ContribSecurity_AfterTaxContribAmt r) ++
    amount "MATCHCONTRIBPCT" (ContribSecurity_MatchContribPct r) ++
    amount "MATCHCONTRIBAMT" (ContribSecurity_MatchContribAmt r) ++
    amount "PROFITSHARINGCONTRIBPCT" (ContribSecurity_ProfitSharingContribPct r) ++
    amount "PROFITSHARINGCONTRIBAMT" (ContribSecurity_ProfitSharingContribAmt r) ++
    amount "ROLLOVERCONTRIBPCT" (ContribSecurity_RolloverContribPct r) ++
    amount "ROLLOVERCONTRIBAMT" (ContribSecurity_RolloverContribAmt r) ++
    amount "OTHERVESTPCT" (ContribSecurity_OtherVestPct r) ++
    amount "OTHERVESTAMT" (ContribSecurity_OtherVestAmt r) ++
    amount "OTHERNONVESTPCT" (ContribSecurity_OtherNonVestPct r) ++
    amount "OTHERNONVESTAMT" (ContribSecurity_OtherNonVestAmt r)).

Definition VestInfo_element (r : VestInfo) : list node :=
  inside "VESTINFO" (
    given (date "VESTDATE") (VestInfo_VestDate r) ++
    amount "VESTPCT" (VestInfo_VestPct r)).

Definition LoanInfo_element (r : LoanInfo) : list node :=
  inside "VESTINFO" (
    text "LOANID" (LoanInfo_LoanID r) ++
    opt_text "LOANDESC" (LoanInfo_LoanDesc r) ++
    amount "INITIALLOANBAL" (LoanInfo_InitialLoanBal r) ++
    given (date "LOANSTARTDATE") (LoanInfo_LoanStartDate r) ++
    amount "CURRENTLOANBAL" (LoanInfo_CurrentLoanBal r) ++
    given (date "DTASOF") (LoanInfo_DtAsOf r) ++
    amount "LOANRATE" (LoanInfo_LoanRate r) ++
    amount "LOANPMTAMT" (LoanInfo_LoanPmtAmt r) ++
    choice "LOANPMTFREQ" enum_loanPmtFreq (LoanInfo_LoanPmtFreq r) ++
    opt_number "LOANPMTSINITIAL" (LoanInfo_LoanPmtsInitial r) ++
    opt_number "LOANPMTSREMAINING" (LoanInfo_LoanPmtsRemaining r) ++
    given (date "LOANMATURITYDATE") (LoanInfo_LoanMaturityDate r) ++
    amount "LOANTOTALPROJINTEREST" (LoanInfo_LoanTotalProjInterest r) ++
    amount "LOANINTERESTTODATE" (LoanInfo_LoanInterestToDate r) ++
    given (date "LOANNEXTPMTDATE") (LoanInfo_LoanExtPmtDate r)).

Definition Inv401KSummaryAggregate_element (nm : string) (r : Inv401KSummaryAggregate) : list node :=
  inside nm (
    amount "PRETAX" (Inv401KSummaryAggregate_PreTax r) ++
    amount "AFTERTAX" (Inv401KSummaryAggregate_AfterTax r) ++
    amount "MATCH" (Inv401KSummaryAggregate_Match r) ++
    amount "PROFITSHARING" (Inv401KSummaryAggregate_ProfitSharing r) ++
    amount "ROLLOVER" (Inv401KSummaryAggregate_Rollover r) ++
    amount "OTHERVEST" (Inv401KSummaryAggregate_OtherVest r) ++
    amount "OTHERNONVEST" (Inv401KSummaryAggregate_OtherNonVest r) ++
    amount "TOTAL" (Inv401KSummaryAggregate_Total r)).

Definition Inv401KSummaryPeriod_element (nm : string) (r : Inv401KSummaryPeriod) : list node :=
  inside nm (
    date "DTSTART" (Inv401KSummaryPeriod_DtStart r) ++
    date "DTEND" (Inv401KSummaryPeriod_DtEnd r) ++
    given (Inv401KSummaryAggregate_element "CONTRIBUTIONS") (Inv401KSummaryPeriod_Contributions r) ++
    given (Inv401KSummaryAggregate_element "WITHDRAWLS") (Inv401KSummaryPeriod_Withdrawls r) ++
    given (Inv401KSummaryAggregate_element "EARNINGS") (Inv401KSummaryPeriod_Earnings r)).

Definition Inv401K_element (r : Inv401K) : list node :=
  inside "INV401K" (
    text "EMPLOYERNAME" (Inv401K_EmployerName r) ++
    opt_text "PLANID" (Inv401K_PlanID r) ++
    given (date "PLANJOINDATE") (Inv401K_PlanJoinDate r) ++
    opt_text "EMPLOYERCONTACTINFO" (Inv401K_EmployerContactInfo r) ++
    opt_text "BROKERCONTACTINFO" (Inv401K_BrokerContactInfo r) ++
    amount "DEFERPCTPRETAX" (Inv401K_DeferPctPreTax r) ++
    amount "DEFERPCTAFTERTAX" (Inv401K_DeferPctAfterTax r) ++
    inside "MATCHINFO" (
      amount "MATCHPCT" (Inv401K_MatchPct r) ++
      amount "MAXMATCHAMT" (Inv401K_MaxMatchAmt r) ++
      amount "MAXMATCHPCT" (Inv401K_MaxMatchPct r) ++
      given (date "STARTOFYEAR") (Inv401K_StartOfYear r) ++
      amount "BASEMATCHAMT" (Inv401K_BaseMatchAmt r) ++
      amount "BASEMATCHPCT" (Inv401K_BaseMatchPct r)) ++
    inside "CONTRIBINTO" (
      each ContribSecurity_element (Inv401K_ContribInfo r)) ++
    amount "CURRENTVESTPCT" (Inv401K_CurrentVestPct r) ++
    each VestInfo_element (Inv401K_VestInfo r) ++
    each LoanInfo_element (Inv401K_LoanInfo r) ++
    inside "INV401KSUMMARY" (
      Inv401KSummaryPeriod_element "YEARTODATE" (Inv401K_YearToDateSummary r) ++
      given (Inv401KSummaryPeriod_element "INCEPTODATE") (Inv401K_InceptToDateSummary r) ++
      given (Inv401KSummaryPeriod_element "PERIODTODATE") (Inv401K_PeriodToDate r))).

Definition Inv401KBal_element (r : Inv401KBal) : list node :=
  inside "INV401KBAL" (
    amount "CASHBAL" (Inv401KBal_CashBal r) ++
    amount "PRETAX" (Inv401KBal_PreTax r) ++
    amount "AFTERTAX" (Inv401KBal_AfterTax r) ++
    amount "MATCH" (Inv401KBal_Match r) ++
    amount "PROFITSHARING" (Inv401KBal_ProfitSharing r) ++
    amount "ROLLOVER" (Inv401KBal_Rollover r) ++
    amount "OTHERVEST" (Inv401KBal_OtherVest r) ++
    amount "OTHERNONVEST" (Inv401KBal_OtherNonVest r) ++
    amount "TOTAL" (Inv401KBal_Total r) ++
    inside "BALLIST" (
      each Balance_element (Inv401KBal_BalList r))).

Definition Position_element (r : Position) : list node :=
  match r with
  | Position_DebtPosition x => DebtPosition_element x
  | Position_MFPosition x => MFPosition_element x
  | Position_OptPosition x => OptPosition_element x
  | Position_OtherPosition x => OtherPosition_element x
  | Position_StockPosition x => StockPosition_element x
  end.

Definition OpenOrder_element (r : OpenOrder) : list node :=
  match r with
  | OpenOrder_OOBuyDebt x => OOBuyDebt_element x
  | OpenOrder_OOBuyMF x => OOBuyMF_element x
  | OpenOrder_OOBuyOpt x => OOBuyOpt_element x
  | OpenOrder_OOBuyOther x => OOBuyOther_element x
  | OpenOrder_OOBuyStock x => OOBuyStock_element x
  | OpenOrder_OOSellDebt x => OOSellDebt_element x
  | OpenOrder_OOSellMF x => OOSellMF_element x
  | OpenOrder_OOSellOpt x => OOSellOpt_element x
  | OpenOrder_OOSellOther x => OOSellOther_element x
  | OpenOrder_OOSellStock x => OOSellStock_element x
  | OpenOrder_OOSwitchMF x => OOSwitchMF_element x
  end.

Definition InvStatementResponse_element (r : InvStatementResponse) : list node :=
  inside "INVSTMTTRNRS" (
    text "TRNUID" (InvStatementResponse_TrnUID r) ++
    Status_element (InvStatementResponse_Status r) ++
    opt_text "CLTCOOKIE" (InvStatementResponse_CltCookie r) ++
    inside "INVSTMTRS" (
      date "DTASOF" (InvStatementResponse_DtAsOf r) ++
      text "CURDEF" (InvStatementResponse_CurDef r) ++
      InvAcct_element "INVACCTFROM" (InvStatementResponse_InvAcctFrom r) ++
      given InvTranList_element (InvStatementResponse_InvTranList r) ++
      unless_empty "INVPOSLIST" (each Position_element (InvStatementResponse_InvPosList r)) ++
      given InvBalance_element (InvStatementResponse_InvBal r) ++
      unless_empty "INVOOLIST" (each OpenOrder_element (InvStatementResponse_InvOOList r)) ++
      opt_text "MKTGINFO" (InvStatementResponse_MktgInfo r) ++
      given Inv401K_element (InvStatementResponse_Inv401K r) ++
      given Inv401KBal_element (InvStatementResponse_Inv401KBal r))).

Definition ProfileRequest_element (r : ProfileRequest) : list node :=
  inside "PROFTRNRQ" (
    text "TRNUID" (ProfileRequest_TrnUID r) ++
    opt_text "CLTCOOKIE" (ProfileRequest_CltCookie r) ++
    opt_text "TAN" (ProfileRequest_TAN r) ++
    inside "PROFRQ" (
      text "CLIENTROUTING" (ProfileRequest_ClientRouting r) ++
      date "DTPROFUP" (ProfileRequest_DtProfUp r))).

Definition SignonInfo_element (r : SignonInfo) : list node :=
  inside "SIGNONINFO" (
    text "SIGNONREALM" (SignonInfo_SignonRealm r) ++
    number "MIN" (SignonInfo_Min r) ++
    number "MAX" (SignonInfo_Max r) ++
    choice "CHARTYPE" enum_charType (SignonInfo_CharType r) ++
    flag "CASESEN" (SignonInfo_CaseSen r) ++
    flag "SPECIAL" (SignonInfo_Special r) ++
    flag "SPACES" (SignonInfo_Spaces r) ++
    flag "PINCH" (SignonInfo_PinCh r) ++
    flag "CHGPINFIRST" (SignonInfo_ChgPinFirst r) ++
    opt_text "USERCRED1LABEL" (SignonInfo_UserCred1Label r) ++
    opt_text "USERCRED2LABEL" (SignonInfo_UserCred2Label r) ++
    opt_flag "CLIENTUIDREQ" (SignonInfo_ClientUIDReq r) ++
    opt_flag "AUTHTOKENFIRST" (SignonInfo_AuthTokenFirst r) ++
    opt_text "AUTHTOKENLABEL" (SignonInfo_AuthTokenLabel r) ++
    opt_text "AUTHTOKENINFOURL" (SignonInfo_AuthTokenInfoURL r) ++
    opt_flag "MFACHALLENGESUPT" (SignonInfo_MFAChallengeSupt r) ++
    opt_flag "MFACHALLENGEFIRST" (SignonInfo_MFAChallengeFIRST r) ++
    opt_flag "ACCESSTOKENREQ" (SignonInfo_AccessTokenReq r)).

(** A message set of a profile, named SOMETHINGV1: the element SOMETHING with the
    element SOMETHINGV1 in it. The Go field Name is written as an element, too. *)
Definition MessageSet_element (r : MessageSet) : list node :=
  [Elem (firstn (length (MessageSet_Name r) - 2) (MessageSet_Name r))
    [Elem (MessageSet_Name r) (
      text "Name" (MessageSet_Name r) ++
      inside "MSGSETCORE" (
        number "VER" (MessageSet_Ver r) ++
        text "URL" (MessageSet_URL r) ++
        choice "OFXSEC" enum_ofxSec (MessageSet_OfxSec r) ++
        flag "TRANSPSEC" (MessageSet_TranspSec r) ++
        text "SIGNONREALM" (MessageSet_SignonRealm r) ++
        each (text "LANGUAGE") (MessageSet_Language r) ++
        choice "SYNCMODE" enum_syncMode (MessageSet_SyncMode r) ++
        opt_flag "REFRESHSUPT" (MessageSet_RefreshSupt r) ++
        flag "RESPFILEER" (MessageSet_RespFileER r) ++
        text "SPNAME" (MessageSet_SpName r)))]].

Definition ProfileResponse_element (r : ProfileResponse) : list node :=
  inside "PROFTRNRS" (
    text "TRNUID" (ProfileResponse_TrnUID r) ++
    Status_element (ProfileResponse_Status r) ++
    opt_text "CLTCOOKIE" (ProfileResponse_CltCookie r) ++
    inside "PROFRS" (
      inside "MSGSETLIST" (each MessageSet_element (ProfileResponse_MessageSetList r)) ++
      inside "SIGNONINFOLIST" (
        each SignonInfo_element (ProfileResponse_SignonInfoList r)) ++
      date "DTPROFUP" (ProfileResponse_DtProfUp r) ++
      text "FINAME" (ProfileResponse_FiName r) ++
      text "ADDR1" (ProfileResponse_Addr1 r) ++
      opt_text "ADDR2" (ProfileResponse_Addr2 r) ++
      opt_text "ADDR3" (ProfileResponse_Addr3 r) ++
      text "CITY" (ProfileResponse_City r) ++
      text "STATE" (ProfileResponse_State r) ++
      text "POSTALCODE" (ProfileResponse_PostalCode r) ++
      text "COUNTRY" (ProfileResponse_Country r) ++
      opt_text "CSPHONE" (ProfileResponse_CsPhone r) ++
      opt_text "TSPHONE" (ProfileResponse_TsPhone r) ++
      opt_text "FAXPHONE" (ProfileResponse_FaxPhone r) ++
      opt_text "URL" (ProfileResponse_URL r) ++
      opt_text "EMAIL" (ProfileResponse_Email r))).

(** The element of a message. *)
Definition message_element (m : Message) : list node :=
  match m with
  | MsgAcctInfoRequest r => AcctInfoRequest_element r
  | MsgStatementRequest r => StatementRequest_element r
  | MsgCCStatementRequest r => CCStatementRequest_element r
  | MsgInvStatementRequest r => InvStatementRequest_element r
  | MsgSecListRequest r => SecListRequest_element r
  | MsgProfileRequest r => ProfileRequest_element r
  | MsgAcctInfoResponse r => AcctInfoResponse_element r
  | MsgStatementResponse r => StatementResponse_element r
  | MsgCCStatementResponse r => CCStatementResponse_element r
  | MsgInvStatementResponse r => InvStatementResponse_element r
  | MsgSecListResponse r => SecListResponse_element r
  | MsgSecurityList r => SecurityList_element r
  | MsgProfileResponse r => ProfileResponse_element r
  end.

(** The elements of the message sets that have messages. *)
Definition sets_elements (sets : list (str * list Message)) : list node :=
  flat_map (fun p => match snd p with
                     | [] => []
                     | ms => [Elem (fst p) (flat_map message_element ms)]
                     end) sets.

(** The whole documents. A request is written with the defaults filled in. *)
Definition request_document (q : Request) : node :=
  Elem (bs "OFX") (
    inside "SIGNONMSGSRQV1" (SignonRequest_element (sent_signon (rq_signon q))) ++
    sets_elements (request_sets (map_slots sent (rq_slots q)))).
Definition response_document (r : Response) : node :=
  Elem (bs "OFX") (
    inside "SIGNONMSGSRSV1" (SignonResponse_element (rs_signon r)) ++
    sets_elements (response_sets (rs_slots r))).

(** The whole files: the lines of the header, each with its line end, and the
    document. End tags are left out before version 200 for the elements that hold
    text. A response is always indented, with LF. *)
Definition request_bytes (q : Request) (s : str) : Prop :=
  exists lines body, header_of (rq_version q) lines /\
    s = concat (map (fun l => l ++ end_of_line (rq_cr q)) lines) ++ body /\
    laid_out (fun nm => (OfxVersion200 <= rq_version q)%N \/ ~ In nm ofx_leaf_elements)
      (gap (rq_indent q) (rq_cr q)) 0 (request_document q) body.
Definition response_bytes (r : Response) (s : str) : Prop :=
  exists lines body, header_of (rs_version r) lines /\
    s = concat (map (fun l => l ++ end_of_line false) lines) ++ body /\
    laid_out (fun _ => True) (gap true false) 0 (response_document r) body.
