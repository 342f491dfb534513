(** What the fields of a message must be when it is read from the content of its
    element: a direct listing, element by element, without the decoder. *)
From Coq Require Import String QArith.
From Verif Require Import GoStr GoTime Types Enums EnumTables Records Messages Codec SpecCodec Schema Document SpecDocument.
Close Scope Q_scope.
Open Scope string_scope.
Open Scope list_scope.

(** The contents of the children called [nm], in their order. *)
Definition called (nm : string) (kids : list node) : list (list node) :=
  flat_map (fun n => match n with Elem x k => if str_eqb x (bs nm) then [k] else [] | _ => [] end) kids.

(** What is inside the element [nm]. If there are several, their contents count as
    one; if there is none, it is empty. *)
Definition inner (nm : string) (kids : list node) : list node := concat (called nm kids).

(** The values of the elements called [nm]: each of them must have one. The value
    is that of the text directly inside the element. *)
Definition values {A} (parse : str -> option A) (nm : string) (kids : list node) (vs : list A) : Prop :=
  Forall2 (fun k v => parse (text_of k) = Some v) (called nm kids) vs.

(** A field whose value is a text, a number, a date ...: the last element counts.
    Without any, the field has the value [absent]. *)
Definition field {A} (parse : str -> option A) (absent : A) (nm : string) (kids : list node) (v : A) : Prop :=
  exists vs, values parse nm kids vs /\ v = last vs absent.

(** A pointer to such a value: nil if there is no element. *)
Definition opt_field {A} (parse : str -> option A) (nm : string) (kids : list node) (o : option A) : Prop :=
  exists vs, values parse nm kids vs /\ o = last (map Some vs) None.

Definition is_text : string -> list node -> str -> Prop := field (fun s => Some (trim_space s)) [].
Definition is_number : string -> list node -> Z -> Prop := field int_unmarshal 0%Z.
Definition is_amount : string -> list node -> Q -> Prop := field amount_unmarshal 0%Q.
Definition is_flag : string -> list node -> bool -> Prop := field boolean_unmarshal false.
Definition is_date (e : env) : string -> list node -> gotime -> Prop := field (date_unmarshal e) zero_time.
Definition is_currency (e : env) : string -> list node -> str -> Prop := field (curr_unmarshal e) (bs "XXX").
Definition is_choice (t : enum) : string -> list node -> N -> Prop := field (enum_unmarshal t) 0%N.
Definition is_opt_date (e : env) : string -> list node -> option gotime -> Prop := opt_field (date_unmarshal e).
Definition is_opt_amount : string -> list node -> option Q -> Prop := opt_field amount_unmarshal.

(** A field that is itself a struct; [R] says how its fields are read. *)
Definition is_part {A} (R : list node -> A -> Prop) (nm : string) (kids : list node) (v : A) : Prop :=
  R (inner nm kids) v.

(** A pointer to a struct: nil if there is no element. *)
Definition is_opt_part {A} (R : list node -> A -> Prop) (nm : string) (kids : list node) (o : option A) : Prop :=
  match o with
  | None => called nm kids = []
  | Some v => called nm kids <> [] /\ R (inner nm kids) v
  end.

(** A slice of structs: one for each element, in order. *)
Definition are_parts {A} (R : list node -> A -> Prop) (nm : string) (kids : list node) (l : list A) : Prop :=
  Forall2 R (called nm kids) l.

(** A list of elements of several kinds, and nothing else but blank text; [R] says
    what the element with a name and a content is. *)
Definition are_listed {A} (R : str -> list node -> A -> Prop) (kids : list node) (l : list A) : Prop :=
  Forall2 (fun n v => exists nm k, n = Elem nm k /\ R nm k v) (solid kids) l.

(** All children but the elements with these names. *)
Definition others (names : list string) (kids : list node) : list node :=
  filter (fun n => match n with Elem x _ => negb (existsb (fun nm => str_eqb x (bs nm)) names) | _ => true end) kids.

Definition Status_says (e : env) (kids : list node) (r : Status) : Prop :=
  is_number "CODE" kids (Status_Code r) /\
  is_text "SEVERITY" kids (Status_Severity r) /\
  is_text "MESSAGE" kids (Status_Message r).

Definition BankAcct_says (e : env) (kids : list node) (r : BankAcct) : Prop :=
  is_text "BANKID" kids (BankAcct_BankID r) /\
  is_text "BRANCHID" kids (BankAcct_BranchID r) /\
  is_text "ACCTID" kids (BankAcct_AcctID r) /\
  is_choice enum_acctType "ACCTTYPE" kids (BankAcct_AcctType r) /\
  is_text "ACCTKEY" kids (BankAcct_AcctKey r).

Definition CCAcct_says (e : env) (kids : list node) (r : CCAcct) : Prop :=
  is_text "ACCTID" kids (CCAcct_AcctID r) /\
  is_text "ACCTKEY" kids (CCAcct_AcctKey r).

Definition InvAcct_says (e : env) (kids : list node) (r : InvAcct) : Prop :=
  is_text "BROKERID" kids (InvAcct_BrokerID r) /\
  is_text "ACCTID" kids (InvAcct_AcctID r).

Definition Currency_says (e : env) (kids : list node) (r : Currency) : Prop :=
  is_amount "CURRATE" kids (Currency_CurRate r) /\
  is_currency e "CURSYM" kids (Currency_CurSym r).

Definition SecurityID_says (e : env) (kids : list node) (r : SecurityID) : Prop :=
  is_text "UNIQUEID" kids (SecurityID_UniqueID r) /\
  is_text "UNIQUEIDTYPE" kids (SecurityID_UniqueIDType r).

Definition SecurityRequest_says (e : env) (kids : list node) (r : SecurityRequest) : Prop :=
  is_opt_part (SecurityID_says e) "SECID" kids (SecurityRequest_SecID r) /\
  is_text "TICKER" kids (SecurityRequest_Ticker r) /\
  is_text "FIID" kids (SecurityRequest_FiID r).

Definition SecListRequest_says (e : env) (kids : list node) (r : SecListRequest) : Prop :=
  let seclistrq := inner "SECLISTRQ" kids in
  is_text "TRNUID" kids (SecListRequest_TrnUID r) /\
  is_text "CLTCOOKIE" kids (SecListRequest_CltCookie r) /\
  is_text "TAN" kids (SecListRequest_TAN r) /\
  are_parts (SecurityRequest_says e) "SECRQ" seclistrq (SecListRequest_Securities r).

Definition SecListResponse_says (e : env) (kids : list node) (r : SecListResponse) : Prop :=
  is_text "TRNUID" kids (SecListResponse_TrnUID r) /\
  is_part (Status_says e) "STATUS" kids (SecListResponse_Status r) /\
  is_text "CLTCOOKIE" kids (SecListResponse_CltCookie r).

Definition SecInfo_says (e : env) (kids : list node) (r : SecInfo) : Prop :=
  is_part (SecurityID_says e) "SECID" kids (SecInfo_SecID r) /\
  is_text "SECNAME" kids (SecInfo_SecName r) /\
  is_text "TICKER" kids (SecInfo_Ticker r) /\
  is_text "FIID" kids (SecInfo_FiID r) /\
  is_text "RATING" kids (SecInfo_Rating r) /\
  is_amount "UNITPRICE" kids (SecInfo_UnitPrice r) /\
  is_opt_date e "DTASOF" kids (SecInfo_DtAsOf r) /\
  is_opt_part (Currency_says e) "CURRENCY" kids (SecInfo_Currency r) /\
  is_text "MEMO" kids (SecInfo_Memo r).

Definition DebtInfo_says (e : env) (kids : list node) (r : DebtInfo) : Prop :=
  is_part (SecInfo_says e) "SECINFO" kids (DebtInfo_SecInfo r) /\
  is_amount "PARVALUE" kids (DebtInfo_ParValue r) /\
  is_choice enum_debtType "DEBTTYPE" kids (DebtInfo_DebtType r) /\
  is_choice enum_debtClass "DEBTCLASS" kids (DebtInfo_DebtClass r) /\
  is_amount "COUPONRT" kids (DebtInfo_CouponRate r) /\
  is_opt_date e "DTCOUPON" kids (DebtInfo_DtCoupon r) /\
  is_choice enum_couponFreq "COUPONFREQ" kids (DebtInfo_CouponFreq r) /\
  is_amount "CALLPRICE" kids (DebtInfo_CallPrice r) /\
  is_amount "YIELDTOCALL" kids (DebtInfo_YieldToCall r) /\
  is_opt_date e "DTCALL" kids (DebtInfo_DtCall r) /\
  is_choice enum_callType "CALLTYPE" kids (DebtInfo_CallType r) /\
  is_amount "YIELDTOMAT" kids (DebtInfo_YieldToMat r) /\
  is_opt_date e "DTMAT" kids (DebtInfo_DtMat r) /\
  is_choice enum_assetClass "ASSETCLASS" kids (DebtInfo_AssetClass r) /\
  is_text "FIASSETCLASS" kids (DebtInfo_FiAssetClass r).

Definition AssetPortion_says (e : env) (kids : list node) (r : AssetPortion) : Prop :=
  is_choice enum_assetClass "ASSETCLASS" kids (AssetPortion_AssetClass r) /\
  is_amount "PERCENT" kids (AssetPortion_Percent r).

Definition FiAssetPortion_says (e : env) (kids : list node) (r : FiAssetPortion) : Prop :=
  is_text "FIASSETCLASS" kids (FiAssetPortion_FiAssetClass r) /\
  is_amount "PERCENT" kids (FiAssetPortion_Percent r).

Definition MFInfo_says (e : env) (kids : list node) (r : MFInfo) : Prop :=
  let mfassetclass := inner "MFASSETCLASS" kids in
  let fimfassetclass := inner "FIMFASSETCLASS" kids in
  is_part (SecInfo_says e) "SECINFO" kids (MFInfo_SecInfo r) /\
  is_choice enum_mfType "MFTYPE" kids (MFInfo_MfType r) /\
  is_amount "YIELD" kids (MFInfo_Yield r) /\
  is_opt_date e "DTYIELDASOF" kids (MFInfo_DtYieldAsOf r) /\
  are_parts (AssetPortion_says e) "PORTION" mfassetclass (MFInfo_AssetClasses r) /\
  are_parts (FiAssetPortion_says e) "FIPORTION" fimfassetclass (MFInfo_FiAssetClasses r).

Definition OptInfo_says (e : env) (kids : list node) (r : OptInfo) : Prop :=
  is_part (SecInfo_says e) "SECINFO" kids (OptInfo_SecInfo r) /\
  is_choice enum_optType "OPTTYPE" kids (OptInfo_OptType r) /\
  is_amount "STRIKEPRICE" kids (OptInfo_StrikePrice r) /\
  is_date e "DTEXPIRE" kids (OptInfo_DtExpire r) /\
  is_number "SHPERCTRCT" kids (OptInfo_ShPerCtrct r) /\
  is_opt_part (SecurityID_says e) "SECID" kids (OptInfo_SecID r) /\
  is_choice enum_assetClass "ASSETCLASS" kids (OptInfo_AssetClass r) /\
  is_text "FIASSETCLASS" kids (OptInfo_FiAssetClass r).

Definition OtherInfo_says (e : env) (kids : list node) (r : OtherInfo) : Prop :=
  is_part (SecInfo_says e) "SECINFO" kids (OtherInfo_SecInfo r) /\
  is_text "TYPEDESC" kids (OtherInfo_TypeDesc r) /\
  is_choice enum_assetClass "ASSETCLASS" kids (OtherInfo_AssetClass r) /\
  is_text "FIASSETCLASS" kids (OtherInfo_FiAssetClass r).

Definition StockInfo_says (e : env) (kids : list node) (r : StockInfo) : Prop :=
  is_part (SecInfo_says e) "SECINFO" kids (StockInfo_SecInfo r) /\
  is_choice enum_stockType "STOCKTYPE" kids (StockInfo_StockType r) /\
  is_amount "YIELD" kids (StockInfo_Yield r) /\
  is_opt_date e "DTYIELDASOF" kids (StockInfo_DtYieldAsOf r) /\
  is_choice enum_assetClass "ASSETCLASS" kids (StockInfo_AssetClass r) /\
  is_text "FIASSETCLASS" kids (StockInfo_FiAssetClass r).

Definition Security_says (e : env) (nm : str) (kids : list node) (r : Security) : Prop :=
  match r with
  | Security_DebtInfo x => nm = bs "DEBTINFO" /\ DebtInfo_says e kids x
  | Security_MFInfo x => nm = bs "MFINFO" /\ MFInfo_says e kids x
  | Security_OptInfo x => nm = bs "OPTINFO" /\ OptInfo_says e kids x
  | Security_OtherInfo x => nm = bs "OTHERINFO" /\ OtherInfo_says e kids x
  | Security_StockInfo x => nm = bs "STOCKINFO" /\ StockInfo_says e kids x
  end.

Definition SecurityList_says (e : env) (kids : list node) (r : SecurityList) : Prop :=
  are_listed (Security_says e) kids (SecurityList_Securities r).

Definition SignonRequest_says (e : env) (kids : list node) (r : SignonRequest) : Prop :=
  let fi := inner "FI" kids in
  is_date e "DTCLIENT" kids (SignonRequest_DtClient r) /\
  is_text "USERID" kids (SignonRequest_UserID r) /\
  is_text "USERPASS" kids (SignonRequest_UserPass r) /\
  is_text "USERKEY" kids (SignonRequest_UserKey r) /\
  is_flag "GENUSERKEY" kids (SignonRequest_GenUserKey r) /\
  is_text "LANGUAGE" kids (SignonRequest_Language r) /\
  is_text "ORG" fi (SignonRequest_Org r) /\
  is_text "FID" fi (SignonRequest_Fid r) /\
  is_text "APPID" kids (SignonRequest_AppID r) /\
  is_text "APPVER" kids (SignonRequest_AppVer r) /\
  is_text "CLIENTUID" kids (SignonRequest_ClientUID r).

Definition SignonResponse_says (e : env) (kids : list node) (r : SignonResponse) : Prop :=
  let fi := inner "FI" kids in
  is_part (Status_says e) "STATUS" kids (SignonResponse_Status r) /\
  is_date e "DTSERVER" kids (SignonResponse_DtServer r) /\
  is_text "USERKEY" kids (SignonResponse_UserKey r) /\
  is_opt_date e "TSKEYEXPIRE" kids (SignonResponse_TsKeyExpire r) /\
  is_text "LANGUAGE" kids (SignonResponse_Language r) /\
  is_opt_date e "DTPROFUP" kids (SignonResponse_DtProfUp r) /\
  is_opt_date e "DTACCTUP" kids (SignonResponse_DtAcctUp r) /\
  is_text "ORG" fi (SignonResponse_Org r) /\
  is_text "FID" fi (SignonResponse_Fid r) /\
  is_text "SESSCOOKIE" kids (SignonResponse_SessCookie r) /\
  is_text "ACCESSKEY" kids (SignonResponse_AccessKey r).

Definition AcctInfoRequest_says (e : env) (kids : list node) (r : AcctInfoRequest) : Prop :=
  let acctinforq := inner "ACCTINFORQ" kids in
  is_text "TRNUID" kids (AcctInfoRequest_TrnUID r) /\
  is_text "CLTCOOKIE" kids (AcctInfoRequest_CltCookie r) /\
  is_text "TAN" kids (AcctInfoRequest_TAN r) /\
  is_date e "DTACCTUP" acctinforq (AcctInfoRequest_DtAcctUp r).

Definition HolderInfo_says (e : env) (kids : list node) (r : HolderInfo) : Prop :=
  is_text "FIRSTNAME" kids (HolderInfo_FirstName r) /\
  is_text "MIDDLENAME" kids (HolderInfo_MiddleName r) /\
  is_text "LASTNAME" kids (HolderInfo_LastName r) /\
  is_text "ADDR1" kids (HolderInfo_Addr1 r) /\
  is_text "ADDR2" kids (HolderInfo_Addr2 r) /\
  is_text "ADDR3" kids (HolderInfo_Addr3 r) /\
  is_text "CITY" kids (HolderInfo_City r) /\
  is_text "STATE" kids (HolderInfo_State r) /\
  is_text "POSTALCODE" kids (HolderInfo_PostalCode r) /\
  is_text "COUNTRY" kids (HolderInfo_Country r) /\
  is_text "DAYPHONE" kids (HolderInfo_DayPhone r) /\
  is_text "EVEPHONE" kids (HolderInfo_EvePhone r) /\
  is_text "EMAIL" kids (HolderInfo_Email r) /\
  is_choice enum_holderType "HOLDERTYPE" kids (HolderInfo_HolderType r).

Definition BankAcctInfo_says (e : env) (kids : list node) (r : BankAcctInfo) : Prop :=
  is_part (BankAcct_says e) "BANKACCTFROM" kids (BankAcctInfo_BankAcctFrom r) /\
  is_flag "SUPTXDL" kids (BankAcctInfo_SupTxDl r) /\
  is_flag "XFERSRC" kids (BankAcctInfo_XferSrc r) /\
  is_flag "XFERDEST" kids (BankAcctInfo_XferDest r) /\
  is_date e "MATURITYDATE" kids (BankAcctInfo_MaturityDate r) /\
  is_amount "MATURITYAMOUNT" kids (BankAcctInfo_MaturityAmt r) /\
  is_amount "MINBALREQ" kids (BankAcctInfo_MinBalReq r) /\
  is_choice enum_acctClassification "ACCTCLASSIFICATION" kids (BankAcctInfo_AcctClassification r) /\
  is_amount "OVERDRAFTLIMIT" kids (BankAcctInfo_OverdraftLimit r) /\
  is_choice enum_svcStatus "SVCSTATUS" kids (BankAcctInfo_SvcStatus r).

Definition CCAcctInfo_says (e : env) (kids : list node) (r : CCAcctInfo) : Prop :=
  is_part (CCAcct_says e) "CCACCTFROM" kids (CCAcctInfo_CCAcctFrom r) /\
  is_flag "SUPTXDL" kids (CCAcctInfo_SupTxDl r) /\
  is_flag "XFERSRC" kids (CCAcctInfo_XferSrc r) /\
  is_flag "XFERDEST" kids (CCAcctInfo_XferDest r) /\
  is_choice enum_acctClassification "ACCTCLASSIFICATION" kids (CCAcctInfo_AcctClassification r) /\
  is_choice enum_svcStatus "SVCSTATUS" kids (CCAcctInfo_SvcStatus r).

Definition InvAcctInfo_says (e : env) (kids : list node) (r : InvAcctInfo) : Prop :=
  is_part (InvAcct_says e) "INVACCTFROM" kids (InvAcctInfo_InvAcctFrom r) /\
  is_choice enum_usProductType "USPRODUCTTYPE" kids (InvAcctInfo_UsProductType r) /\
  is_flag "CHECKING" kids (InvAcctInfo_Checking r) /\
  is_choice enum_svcStatus "SVCSTATUS" kids (InvAcctInfo_SvcStatus r) /\
  is_choice enum_holderType "INVACCTTYPE" kids (InvAcctInfo_InvAcctType r) /\
  is_text "OPTIONLEVEL" kids (InvAcctInfo_OptionLevel r).

Definition AcctInfo_says (e : env) (kids : list node) (r : AcctInfo) : Prop :=
  let holderinfo := inner "HOLDERINFO" kids in
  is_text "NAME" kids (AcctInfo_Name r) /\
  is_text "DESC" kids (AcctInfo_Desc r) /\
  is_text "PHONE" kids (AcctInfo_Phone r) /\
  is_part (HolderInfo_says e) "PRIMARYHOLDER" holderinfo (AcctInfo_PrimaryHolder r) /\
  is_part (HolderInfo_says e) "SECONDARYHOLDER" holderinfo (AcctInfo_SecondaryHolder r) /\
  is_opt_part (BankAcctInfo_says e) "BANKACCTINFO" kids (AcctInfo_BankAcctInfo r) /\
  is_opt_part (CCAcctInfo_says e) "CCACCTINFO" kids (AcctInfo_CCAcctInfo r) /\
  is_opt_part (InvAcctInfo_says e) "INVACCTINFO" kids (AcctInfo_InvAcctInfo r).

Definition AcctInfoResponse_says (e : env) (kids : list node) (r : AcctInfoResponse) : Prop :=
  let acctinfors := inner "ACCTINFORS" kids in
  is_text "TRNUID" kids (AcctInfoResponse_TrnUID r) /\
  is_part (Status_says e) "STATUS" kids (AcctInfoResponse_Status r) /\
  is_text "CLTCOOKIE" kids (AcctInfoResponse_CltCookie r) /\
  is_date e "DTACCTUP" acctinfors (AcctInfoResponse_DtAcctUp r) /\
  are_parts (AcctInfo_says e) "ACCTINFO" acctinfors (AcctInfoResponse_AcctInfo r).

Definition StatementRequest_says (e : env) (kids : list node) (r : StatementRequest) : Prop :=
  let stmtrq := inner "STMTRQ" kids in
  let inctran := inner "INCTRAN" stmtrq in
  is_text "TRNUID" kids (StatementRequest_TrnUID r) /\
  is_text "CLTCOOKIE" kids (StatementRequest_CltCookie r) /\
  is_text "TAN" kids (StatementRequest_TAN r) /\
  is_part (BankAcct_says e) "BANKACCTFROM" stmtrq (StatementRequest_BankAcctFrom r) /\
  is_opt_date e "DTSTART" inctran (StatementRequest_DtStart r) /\
  is_opt_date e "DTEND" inctran (StatementRequest_DtEnd r) /\
  is_flag "INCLUDE" inctran (StatementRequest_Include r) /\
  is_flag "INCLUDEPENDING" stmtrq (StatementRequest_IncludePending r) /\
  is_flag "INCTRANIMG" stmtrq (StatementRequest_IncTranImg r).

Definition Payee_says (e : env) (kids : list node) (r : Payee) : Prop :=
  is_text "NAME" kids (Payee_Name r) /\
  is_text "ADDR1" kids (Payee_Addr1 r) /\
  is_text "ADDR2" kids (Payee_Addr2 r) /\
  is_text "ADDR3" kids (Payee_Addr3 r) /\
  is_text "CITY" kids (Payee_City r) /\
  is_text "STATE" kids (Payee_State r) /\
  is_text "POSTALCODE" kids (Payee_PostalCode r) /\
  is_text "COUNTRY" kids (Payee_Country r) /\
  is_text "PHONE" kids (Payee_Phone r).

Definition ImageData_says (e : env) (kids : list node) (r : ImageData) : Prop :=
  is_choice enum_imageType "IMAGETYPE" kids (ImageData_ImageType r) /\
  is_text "IMAGEREF" kids (ImageData_ImageRef r) /\
  is_choice enum_imageRefType "IMAGEREFTYPE" kids (ImageData_ImageRefType r) /\
  is_number "IMAGEDELAY" kids (ImageData_ImageDelay r) /\
  is_opt_date e "DTIMAGEAVAIL" kids (ImageData_DtImageAvail r) /\
  is_number "IMAGETTL" kids (ImageData_ImageTTL r) /\
  is_choice enum_checkSup "CHECKSUP" kids (ImageData_CheckSup r).

Definition Transaction_says (e : env) (kids : list node) (r : Transaction) : Prop :=
  is_choice enum_trnType "TRNTYPE" kids (Transaction_TrnType r) /\
  is_date e "DTPOSTED" kids (Transaction_DtPosted r) /\
  is_opt_date e "DTUSER" kids (Transaction_DtUser r) /\
  is_opt_date e "DTAVAIL" kids (Transaction_DtAvail r) /\
  is_amount "TRNAMT" kids (Transaction_TrnAmt r) /\
  is_text "FITID" kids (Transaction_FiTID r) /\
  is_text "CORRECTFITID" kids (Transaction_CorrectFiTID r) /\
  is_choice enum_correctAction "CORRECTACTION" kids (Transaction_CorrectAction r) /\
  is_text "SRVRTID" kids (Transaction_SrvrTID r) /\
  is_text "CHECKNUM" kids (Transaction_CheckNum r) /\
  is_text "REFNUM" kids (Transaction_RefNum r) /\
  is_number "SIC" kids (Transaction_SIC r) /\
  is_text "PAYEEID" kids (Transaction_PayeeID r) /\
  is_text "NAME" kids (Transaction_Name r) /\
  is_opt_part (Payee_says e) "PAYEE" kids (Transaction_Payee r) /\
  is_text "EXTDNAME" kids (Transaction_ExtdName r) /\
  is_opt_part (BankAcct_says e) "BANKACCTTO" kids (Transaction_BankAcctTo r) /\
  is_opt_part (CCAcct_says e) "CCACCTTO" kids (Transaction_CCAcctTo r) /\
  is_text "MEMO" kids (Transaction_Memo r) /\
  are_parts (ImageData_says e) "IMAGEDATA" kids (Transaction_ImageData r) /\
  is_opt_part (Currency_says e) "CURRENCY" kids (Transaction_Currency r) /\
  is_opt_part (Currency_says e) "ORIGCURRENCY" kids (Transaction_OrigCurrency r) /\
  is_choice enum_inv401kSource "INV401KSOURCE" kids (Transaction_Inv401kSource r).

Definition TransactionList_says (e : env) (kids : list node) (r : TransactionList) : Prop :=
  is_date e "DTSTART" kids (TransactionList_DtStart r) /\
  is_date e "DTEND" kids (TransactionList_DtEnd r) /\
  are_parts (Transaction_says e) "STMTTRN" kids (TransactionList_Transactions r).

Definition PendingTransaction_says (e : env) (kids : list node) (r : PendingTransaction) : Prop :=
  is_choice enum_trnType "TRNTYPE" kids (PendingTransaction_TrnType r) /\
  is_date e "DTTRAN" kids (PendingTransaction_DtTran r) /\
  is_opt_date e "DTEXPIRE" kids (PendingTransaction_DtExpire r) /\
  is_amount "TRNAMT" kids (PendingTransaction_TrnAmt r) /\
  is_text "REFNUM" kids (PendingTransaction_RefNum r) /\
  is_text "NAME" kids (PendingTransaction_Name r) /\
  is_text "EXTDNAME" kids (PendingTransaction_ExtdName r) /\
  is_text "MEMO" kids (PendingTransaction_Memo r) /\
  are_parts (ImageData_says e) "IMAGEDATA" kids (PendingTransaction_ImageData r) /\
  is_part (Currency_says e) "CURRENCY" kids (PendingTransaction_Currency r) /\
  is_part (Currency_says e) "ORIGCURRENCY" kids (PendingTransaction_OrigCurrency r).

Definition PendingTransactionList_says (e : env) (kids : list node) (r : PendingTransactionList) : Prop :=
  is_date e "DTASOF" kids (PendingTransactionList_DtAsOf r) /\
  are_parts (PendingTransaction_says e) "STMTTRNP" kids (PendingTransactionList_Transactions r).

Definition Balance_says (e : env) (kids : list node) (r : Balance) : Prop :=
  is_text "NAME" kids (Balance_Name r) /\
  is_text "DESC" kids (Balance_Desc r) /\
  is_choice enum_balType "BALTYPE" kids (Balance_BalType r) /\
  is_amount "VALUE" kids (Balance_Value r) /\
  is_opt_date e "DTASOF" kids (Balance_DtAsOf r) /\
  is_opt_part (Currency_says e) "CURRENCY" kids (Balance_Currency r).

Definition StatementResponse_says (e : env) (kids : list node) (r : StatementResponse) : Prop :=
  let stmtrs := inner "STMTRS" kids in
  let ledgerbal := inner "LEDGERBAL" stmtrs in
  let availbal := inner "AVAILBAL" stmtrs in
  let ballist := inner "BALLIST" stmtrs in
  is_text "TRNUID" kids (StatementResponse_TrnUID r) /\
  is_part (Status_says e) "STATUS" kids (StatementResponse_Status r) /\
  is_text "CLTCOOKIE" kids (StatementResponse_CltCookie r) /\
  is_currency e "CURDEF" stmtrs (StatementResponse_CurDef r) /\
  is_part (BankAcct_says e) "BANKACCTFROM" stmtrs (StatementResponse_BankAcctFrom r) /\
  is_opt_part (TransactionList_says e) "BANKTRANLIST" stmtrs (StatementResponse_BankTranList r) /\
  is_opt_part (PendingTransactionList_says e) "BANKTRANLISTP" stmtrs (StatementResponse_BankTranListP r) /\
  is_amount "BALAMT" ledgerbal (StatementResponse_BalAmt r) /\
  is_date e "DTASOF" ledgerbal (StatementResponse_DtAsOf r) /\
  is_opt_amount "BALAMT" availbal (StatementResponse_AvailBalAmt r) /\
  is_opt_date e "DTASOF" availbal (StatementResponse_AvailDtAsOf r) /\
  is_opt_amount "CASHADVBALAMT" stmtrs (StatementResponse_CashAdvBalAmt r) /\
  is_opt_amount "INTRATE" stmtrs (StatementResponse_IntRate r) /\
  are_parts (Balance_says e) "BAL" ballist (StatementResponse_BalList r) /\
  is_text "MKTGINFO" stmtrs (StatementResponse_MktgInfo r).

Definition CCStatementRequest_says (e : env) (kids : list node) (r : CCStatementRequest) : Prop :=
  let ccstmtrq := inner "CCSTMTRQ" kids in
  let inctran := inner "INCTRAN" ccstmtrq in
  is_text "TRNUID" kids (CCStatementRequest_TrnUID r) /\
  is_text "CLTCOOKIE" kids (CCStatementRequest_CltCookie r) /\
  is_text "TAN" kids (CCStatementRequest_TAN r) /\
  is_part (CCAcct_says e) "CCACCTFROM" ccstmtrq (CCStatementRequest_CCAcctFrom r) /\
  is_opt_date e "DTSTART" inctran (CCStatementRequest_DtStart r) /\
  is_opt_date e "DTEND" inctran (CCStatementRequest_DtEnd r) /\
  is_flag "INCLUDE" inctran (CCStatementRequest_Include r) /\
  is_flag "INCLUDEPENDING" ccstmtrq (CCStatementRequest_IncludePending r) /\
  is_flag "INCTRANIMG" ccstmtrq (CCStatementRequest_IncTranImg r).

Definition CCStatementResponse_says (e : env) (kids : list node) (r : CCStatementResponse) : Prop :=
  let ccstmtrs := inner "CCSTMTRS" kids in
  let ledgerbal := inner "LEDGERBAL" ccstmtrs in
  let availbal := inner "AVAILBAL" ccstmtrs in
  let rewardinfo := inner "REWARDINFO" ccstmtrs in
  let ballist := inner "BALLIST" ccstmtrs in
  is_text "TRNUID" kids (CCStatementResponse_TrnUID r) /\
  is_part (Status_says e) "STATUS" kids (CCStatementResponse_Status r) /\
  is_text "CLTCOOKIE" kids (CCStatementResponse_CltCookie r) /\
  is_currency e "CURDEF" ccstmtrs (CCStatementResponse_CurDef r) /\
  is_part (CCAcct_says e) "CCACCTFROM" ccstmtrs (CCStatementResponse_CCAcctFrom r) /\
  is_opt_part (TransactionList_says e) "BANKTRANLIST" ccstmtrs (CCStatementResponse_BankTranList r) /\
  is_amount "BALAMT" ledgerbal (CCStatementResponse_BalAmt r) /\
  is_date e "DTASOF" ledgerbal (CCStatementResponse_DtAsOf r) /\
  is_opt_amount "BALAMT" availbal (CCStatementResponse_AvailBalAmt r) /\
  is_opt_date e "DTASOF" availbal (CCStatementResponse_AvailDtAsOf r) /\
  is_amount "CASHADVBALAMT" ccstmtrs (CCStatementResponse_CashAdvBalAmt r) /\
  is_amount "INTRATEPURCH" ccstmtrs (CCStatementResponse_IntRatePurch r) /\
  is_amount "INTRATECASH" ccstmtrs (CCStatementResponse_IntRateCash r) /\
  is_amount "INTRATEXFER" ccstmtrs (CCStatementResponse_IntRateXfer r) /\
  is_text "NAME" rewardinfo (CCStatementResponse_RewardName r) /\
  is_amount "REWARDBAL" rewardinfo (CCStatementResponse_RewardBal r) /\
  is_amount "REWARDEARNED" rewardinfo (CCStatementResponse_RewardEarned r) /\
  are_parts (Balance_says e) "BAL" ballist (CCStatementResponse_BalList r) /\
  is_text "MKTGINFO" ccstmtrs (CCStatementResponse_MktgInfo r).

Definition InvStatementRequest_says (e : env) (kids : list node) (r : InvStatementRequest) : Prop :=
  let invstmtrq := inner "INVSTMTRQ" kids in
  let inctran := inner "INCTRAN" invstmtrq in
  let incpos := inner "INCPOS" invstmtrq in
  is_text "TRNUID" kids (InvStatementRequest_TrnUID r) /\
  is_text "CLTCOOKIE" kids (InvStatementRequest_CltCookie r) /\
  is_text "TAN" kids (InvStatementRequest_TAN r) /\
  is_part (InvAcct_says e) "INVACCTFROM" invstmtrq (InvStatementRequest_InvAcctFrom r) /\
  is_opt_date e "DTSTART" inctran (InvStatementRequest_DtStart r) /\
  is_opt_date e "DTEND" inctran (InvStatementRequest_DtEnd r) /\
  is_flag "INCLUDE" inctran (InvStatementRequest_Include r) /\
  is_flag "INCOO" invstmtrq (InvStatementRequest_IncludeOO r) /\
  is_opt_date e "DTASOF" incpos (InvStatementRequest_PosDtAsOf r) /\
  is_flag "INCLUDE" incpos (InvStatementRequest_IncludePos r) /\
  is_flag "INCBAL" invstmtrq (InvStatementRequest_IncludeBalance r) /\
  is_flag "INC401K" invstmtrq (InvStatementRequest_Include401K r) /\
  is_flag "INC401KBAL" invstmtrq (InvStatementRequest_Include401KBal r) /\
  is_flag "INCTRANIMAGE" invstmtrq (InvStatementRequest_IncludeTranImage r).

Definition InvTran_says (e : env) (kids : list node) (r : InvTran) : Prop :=
  is_text "FITID" kids (InvTran_FiTID r) /\
  is_text "SRVRTID" kids (InvTran_SrvrTID r) /\
  is_date e "DTTRADE" kids (InvTran_DtTrade r) /\
  is_opt_date e "DTSETTLE" kids (InvTran_DtSettle r) /\
  is_text "REVERSALFITID" kids (InvTran_ReversalFiTID r) /\
  is_text "MEMO" kids (InvTran_Memo r).

Definition InvBuy_says (e : env) (kids : list node) (r : InvBuy) : Prop :=
  is_part (InvTran_says e) "INVTRAN" kids (InvBuy_InvTran r) /\
  is_part (SecurityID_says e) "SECID" kids (InvBuy_SecID r) /\
  is_amount "UNITS" kids (InvBuy_Units r) /\
  is_amount "UNITPRICE" kids (InvBuy_UnitPrice r) /\
  is_amount "MARKUP" kids (InvBuy_Markup r) /\
  is_amount "COMMISSION" kids (InvBuy_Commission r) /\
  is_amount "TAXES" kids (InvBuy_Taxes r) /\
  is_amount "FEES" kids (InvBuy_Fees r) /\
  is_amount "LOAD" kids (InvBuy_Load r) /\
  is_amount "TOTAL" kids (InvBuy_Total r) /\
  is_part (Currency_says e) "CURRENCY" kids (InvBuy_Currency r) /\
  is_part (Currency_says e) "ORIGCURRENCY" kids (InvBuy_OrigCurrency r) /\
  is_choice enum_subAcctType "SUBACCTSEC" kids (InvBuy_SubAcctSec r) /\
  is_choice enum_subAcctType "SUBACCTFUND" kids (InvBuy_SubAcctFund r) /\
  is_text "LOANID" kids (InvBuy_LoanID r) /\
  is_amount "LOANPRINCIPAL" kids (InvBuy_LoanPrincipal r) /\
  is_amount "LOANINTEREST" kids (InvBuy_LoanInterest r) /\
  is_choice enum_inv401kSource "INV401KSOURCE" kids (InvBuy_Inv401kSource r) /\
  is_opt_date e "DTPAYROLL" kids (InvBuy_DtPayroll r) /\
  is_flag "PRIORYEARCONTRIB" kids (InvBuy_PriorYearContrib r).

Definition InvSell_says (e : env) (kids : list node) (r : InvSell) : Prop :=
  is_part (InvTran_says e) "INVTRAN" kids (InvSell_InvTran r) /\
  is_part (SecurityID_says e) "SECID" kids (InvSell_SecID r) /\
  is_amount "UNITS" kids (InvSell_Units r) /\
  is_amount "UNITPRICE" kids (InvSell_UnitPrice r) /\
  is_amount "MARKDOWN" kids (InvSell_Markdown r) /\
  is_amount "COMMISSION" kids (InvSell_Commission r) /\
  is_amount "TAXES" kids (InvSell_Taxes r) /\
  is_amount "FEES" kids (InvSell_Fees r) /\
  is_amount "LOAD" kids (InvSell_Load r) /\
  is_amount "WITHHOLDING" kids (InvSell_Withholding r) /\
  is_flag "TAXEXEMPT" kids (InvSell_TaxExempt r) /\
  is_amount "TOTAL" kids (InvSell_Total r) /\
  is_amount "GAIN" kids (InvSell_Gain r) /\
  is_part (Currency_says e) "CURRENCY" kids (InvSell_Currency r) /\
  is_part (Currency_says e) "ORIGCURRENCY" kids (InvSell_OrigCurrency r) /\
  is_choice enum_subAcctType "SUBACCTSEC" kids (InvSell_SubAcctSec r) /\
  is_choice enum_subAcctType "SUBACCTFUND" kids (InvSell_SubAcctFund r) /\
  is_text "LOANID" kids (InvSell_LoanID r) /\
  is_amount "STATEWITHHOLDING" kids (InvSell_StateWithholding r) /\
  is_amount "PENALTY" kids (InvSell_Penalty r) /\
  is_choice enum_inv401kSource "INV401KSOURCE" kids (InvSell_Inv401kSource r).

Definition BuyDebt_says (e : env) (kids : list node) (r : BuyDebt) : Prop :=
  is_part (InvBuy_says e) "INVBUY" kids (BuyDebt_InvBuy r) /\
  is_amount "ACCRDINT" kids (BuyDebt_AccrdInt r).

Definition BuyMF_says (e : env) (kids : list node) (r : BuyMF) : Prop :=
  is_part (InvBuy_says e) "INVBUY" kids (BuyMF_InvBuy r) /\
  is_choice enum_buyType "BUYTYPE" kids (BuyMF_BuyType r) /\
  is_text "RELFITID" kids (BuyMF_RelFiTID r).

Definition BuyOpt_says (e : env) (kids : list node) (r : BuyOpt) : Prop :=
  is_part (InvBuy_says e) "INVBUY" kids (BuyOpt_InvBuy r) /\
  is_choice enum_optBuyType "OPTBUYTYPE" kids (BuyOpt_OptBuyType r) /\
  is_number "SHPERCTRCT" kids (BuyOpt_ShPerCtrct r).

Definition BuyOther_says (e : env) (kids : list node) (r : BuyOther) : Prop :=
  is_part (InvBuy_says e) "INVBUY" kids (BuyOther_InvBuy r).

Definition BuyStock_says (e : env) (kids : list node) (r : BuyStock) : Prop :=
  is_part (InvBuy_says e) "INVBUY" kids (BuyStock_InvBuy r) /\
  is_choice enum_buyType "BUYTYPE" kids (BuyStock_BuyType r).

Definition ClosureOpt_says (e : env) (kids : list node) (r : ClosureOpt) : Prop :=
  is_part (InvTran_says e) "INVTRAN" kids (ClosureOpt_InvTran r) /\
  is_part (SecurityID_says e) "SECID" kids (ClosureOpt_SecID r) /\
  is_choice enum_optAction "OPTACTION" kids (ClosureOpt_OptAction r) /\
  is_amount "UNITS" kids (ClosureOpt_Units r) /\
  is_number "SHPERCTRCT" kids (ClosureOpt_ShPerCtrct r) /\
  is_choice enum_subAcctType "SUBACCTSEC" kids (ClosureOpt_SubAcctSec r) /\
  is_text "RELFITID" kids (ClosureOpt_RelFiTID r) /\
  is_amount "GAIN" kids (ClosureOpt_Gain r).

Definition Income_says (e : env) (kids : list node) (r : Income) : Prop :=
  is_part (InvTran_says e) "INVTRAN" kids (Income_InvTran r) /\
  is_part (SecurityID_says e) "SECID" kids (Income_SecID r) /\
  is_choice enum_incomeType "INCOMETYPE" kids (Income_IncomeType r) /\
  is_amount "TOTAL" kids (Income_Total r) /\
  is_choice enum_subAcctType "SUBACCTSEC" kids (Income_SubAcctSec r) /\
  is_choice enum_subAcctType "SUBACCTFUND" kids (Income_SubAcctFund r) /\
  is_flag "TAXEXEMPT" kids (Income_TaxExempt r) /\
  is_amount "WITHHOLDING" kids (Income_Withholding r) /\
  is_part (Currency_says e) "CURRENCY" kids (Income_Currency r) /\
  is_part (Currency_says e) "ORIGCURRENCY" kids (Income_OrigCurrency r) /\
  is_choice enum_inv401kSource "INV401KSOURCE" kids (Income_Inv401kSource r).

Definition InvExpense_says (e : env) (kids : list node) (r : InvExpense) : Prop :=
  is_part (InvTran_says e) "INVTRAN" kids (InvExpense_InvTran r) /\
  is_part (SecurityID_says e) "SECID" kids (InvExpense_SecID r) /\
  is_amount "TOTAL" kids (InvExpense_Total r) /\
  is_choice enum_subAcctType "SUBACCTSEC" kids (InvExpense_SubAcctSec r) /\
  is_choice enum_subAcctType "SUBACCTFUND" kids (InvExpense_SubAcctFund r) /\
  is_part (Currency_says e) "CURRENCY" kids (InvExpense_Currency r) /\
  is_part (Currency_says e) "ORIGCURRENCY" kids (InvExpense_OrigCurrency r) /\
  is_choice enum_inv401kSource "INV401KSOURCE" kids (InvExpense_Inv401kSource r).

Definition JrnlFund_says (e : env) (kids : list node) (r : JrnlFund) : Prop :=
  is_part (InvTran_says e) "INVTRAN" kids (JrnlFund_InvTran r) /\
  is_amount "TOTAL" kids (JrnlFund_Total r) /\
  is_choice enum_subAcctType "SUBACCTFROM" kids (JrnlFund_SubAcctFrom r) /\
  is_choice enum_subAcctType "SUBACCTTO" kids (JrnlFund_SubAcctTo r).

Definition JrnlSec_says (e : env) (kids : list node) (r : JrnlSec) : Prop :=
  is_part (InvTran_says e) "INVTRAN" kids (JrnlSec_InvTran r) /\
  is_part (SecurityID_says e) "SECID" kids (JrnlSec_SecID r) /\
  is_choice enum_subAcctType "SUBACCTFROM" kids (JrnlSec_SubAcctFrom r) /\
  is_choice enum_subAcctType "SUBACCTTO" kids (JrnlSec_SubAcctTo r) /\
  is_amount "UNITS" kids (JrnlSec_Units r).

Definition MarginInterest_says (e : env) (kids : list node) (r : MarginInterest) : Prop :=
  is_part (InvTran_says e) "INVTRAN" kids (MarginInterest_InvTran r) /\
  is_amount "TOTAL" kids (MarginInterest_Total r) /\
  is_choice enum_subAcctType "SUBACCTFUND" kids (MarginInterest_SubAcctFund r) /\
  is_part (Currency_says e) "CURRENCY" kids (MarginInterest_Currency r) /\
  is_part (Currency_says e) "ORIGCURRENCY" kids (MarginInterest_OrigCurrency r).

Definition Reinvest_says (e : env) (kids : list node) (r : Reinvest) : Prop :=
  is_part (InvTran_says e) "INVTRAN" kids (Reinvest_InvTran r) /\
  is_part (SecurityID_says e) "SECID" kids (Reinvest_SecID r) /\
  is_choice enum_incomeType "INCOMETYPE" kids (Reinvest_IncomeType r) /\
  is_amount "TOTAL" kids (Reinvest_Total r) /\
  is_choice enum_subAcctType "SUBACCTSEC" kids (Reinvest_SubAcctSec r) /\
  is_amount "UNITS" kids (Reinvest_Units r) /\
  is_amount "UNITPRICE" kids (Reinvest_UnitPrice r) /\
  is_amount "COMMISSION" kids (Reinvest_Commission r) /\
  is_amount "TAXES" kids (Reinvest_Taxes r) /\
  is_amount "FEES" kids (Reinvest_Fees r) /\
  is_amount "LOAD" kids (Reinvest_Load r) /\
  is_flag "TAXEXEMPT" kids (Reinvest_TaxExempt r) /\
  is_part (Currency_says e) "CURRENCY" kids (Reinvest_Currency r) /\
  is_part (Currency_says e) "ORIGCURRENCY" kids (Reinvest_OrigCurrency r) /\
  is_choice enum_inv401kSource "INV401KSOURCE" kids (Reinvest_Inv401kSource r).

Definition RetOfCap_says (e : env) (kids : list node) (r : RetOfCap) : Prop :=
  is_part (InvTran_says e) "INVTRAN" kids (RetOfCap_InvTran r) /\
  is_part (SecurityID_says e) "SECID" kids (RetOfCap_SecID r) /\
  is_amount "TOTAL" kids (RetOfCap_Total r) /\
  is_choice enum_subAcctType "SUBACCTSEC" kids (RetOfCap_SubAcctSec r) /\
  is_choice enum_subAcctType "SUBACCTFUND" kids (RetOfCap_SubAcctFund r) /\
  is_part (Currency_says e) "CURRENCY" kids (RetOfCap_Currency r) /\
  is_part (Currency_says e) "ORIGCURRENCY" kids (RetOfCap_OrigCurrency r) /\
  is_choice enum_inv401kSource "INV401KSOURCE" kids (RetOfCap_Inv401kSource r).

Definition SellDebt_says (e : env) (kids : list node) (r : SellDebt) : Prop :=
  is_part (InvSell_says e) "INVSELL" kids (SellDebt_InvSell r) /\
  is_choice enum_sellReason "SELLREASON" kids (SellDebt_SellReason r) /\
  is_amount "ACCRDINT" kids (SellDebt_AccrdInt r).

Definition SellMF_says (e : env) (kids : list node) (r : SellMF) : Prop :=
  is_part (InvSell_says e) "INVSELL" kids (SellMF_InvSell r) /\
  is_choice enum_sellType "SELLTYPE" kids (SellMF_SellType r) /\
  is_amount "AVGCOSTBASIS" kids (SellMF_AvgCostBasis r) /\
  is_text "RELFITID" kids (SellMF_RelFiTID r).

Definition SellOpt_says (e : env) (kids : list node) (r : SellOpt) : Prop :=
  is_part (InvSell_says e) "INVSELL" kids (SellOpt_InvSell r) /\
  is_choice enum_optSellType "OPTSELLTYPE" kids (SellOpt_OptSellType r) /\
  is_number "SHPERCTRCT" kids (SellOpt_ShPerCtrct r) /\
  is_text "RELFITID" kids (SellOpt_RelFiTID r) /\
  is_choice enum_relType "RELTYPE" kids (SellOpt_RelType r) /\
  is_choice enum_secured "SECURED" kids (SellOpt_Secured r).

Definition SellOther_says (e : env) (kids : list node) (r : SellOther) : Prop :=
  is_part (InvSell_says e) "INVSELL" kids (SellOther_InvSell r).

Definition SellStock_says (e : env) (kids : list node) (r : SellStock) : Prop :=
  is_part (InvSell_says e) "INVSELL" kids (SellStock_InvSell r) /\
  is_choice enum_sellType "SELLTYPE" kids (SellStock_SellType r).

Definition Split_says (e : env) (kids : list node) (r : Split) : Prop :=
  is_part (InvTran_says e) "INVTRAN" kids (Split_InvTran r) /\
  is_part (SecurityID_says e) "SECID" kids (Split_SecID r) /\
  is_choice enum_subAcctType "SUBACCTSEC" kids (Split_SubAcctSec r) /\
  is_amount "OLDUNITS" kids (Split_OldUnits r) /\
  is_amount "NEWUNITS" kids (Split_NewUnits r) /\
  is_number "NUMERATOR" kids (Split_Numerator r) /\
  is_number "DENOMINATOR" kids (Split_Denominator r) /\
  is_part (Currency_says e) "CURRENCY" kids (Split_Currency r) /\
  is_part (Currency_says e) "ORIGCURRENCY" kids (Split_OrigCurrency r) /\
  is_amount "FRACCASH" kids (Split_FracCash r) /\
  is_choice enum_subAcctType "SUBACCTFUND" kids (Split_SubAcctFund r) /\
  is_choice enum_inv401kSource "INV401KSOURCE" kids (Split_Inv401kSource r).

Definition Transfer_says (e : env) (kids : list node) (r : Transfer) : Prop :=
  is_part (InvTran_says e) "INVTRAN" kids (Transfer_InvTran r) /\
  is_part (SecurityID_says e) "SECID" kids (Transfer_SecID r) /\
  is_choice enum_subAcctType "SUBACCTSEC" kids (Transfer_SubAcctSec r) /\
  is_amount "UNITS" kids (Transfer_Units r) /\
  is_choice enum_tferAction "TFERACTION" kids (Transfer_TferAction r) /\
  is_choice enum_posType "POSTYPE" kids (Transfer_PosType r) /\
  is_part (InvAcct_says e) "INVACCTFROM" kids (Transfer_InvAcctFrom r) /\
  is_amount "AVGCOSTBASIS" kids (Transfer_AvgCostBasis r) /\
  is_amount "UNITPRICE" kids (Transfer_UnitPrice r) /\
  is_opt_date e "DTPURCHASE" kids (Transfer_DtPurchase r) /\
  is_choice enum_inv401kSource "INV401KSOURCE" kids (Transfer_Inv401kSource r).

Definition InvBankTransaction_says (e : env) (kids : list node) (r : InvBankTransaction) : Prop :=
  are_parts (Transaction_says e) "STMTTRN" kids (InvBankTransaction_Transactions r) /\
  is_choice enum_subAcctType "SUBACCTFUND" kids (InvBankTransaction_SubAcctFund r).

Definition InvTransaction_says (e : env) (nm : str) (kids : list node) (r : InvTransaction) : Prop :=
  match r with
  | InvTransaction_BuyDebt x => nm = bs "BUYDEBT" /\ BuyDebt_says e kids x
  | InvTransaction_BuyMF x => nm = bs "BUYMF" /\ BuyMF_says e kids x
  | InvTransaction_BuyOpt x => nm = bs "BUYOPT" /\ BuyOpt_says e kids x
  | InvTransaction_BuyOther x => nm = bs "BUYOTHER" /\ BuyOther_says e kids x
  | InvTransaction_BuyStock x => nm = bs "BUYSTOCK" /\ BuyStock_says e kids x
  | InvTransaction_ClosureOpt x => nm = bs "CLOSUREOPT" /\ ClosureOpt_says e kids x
  | InvTransaction_Income x => nm = bs "INCOME" /\ Income_says e kids x
  | InvTransaction_InvExpense x => nm = bs "INVEXPENSE" /\ InvExpense_says e kids x
  | InvTransaction_JrnlFund x => nm = bs "JRNLFUND" /\ JrnlFund_says e kids x
  | InvTransaction_JrnlSec x => nm = bs "JRNLSEC" /\ JrnlSec_says e kids x
  | InvTransaction_MarginInterest x => nm = bs "MARGININTEREST" /\ MarginInterest_says e kids x
  | InvTransaction_Reinvest x => nm = bs "REINVEST" /\ Reinvest_says e kids x
  | InvTransaction_RetOfCap x => nm = bs "RETOFCAP" /\ RetOfCap_says e kids x
  | InvTransaction_SellDebt x => nm = bs "SELLDEBT" /\ SellDebt_says e kids x
  | InvTransaction_SellMF x => nm = bs "SELLMF" /\ SellMF_says e kids x
  | InvTransaction_SellOpt x => nm = bs "SELLOPT" /\ SellOpt_says e kids x
  | InvTransaction_SellOther x => nm = bs "SELLOTHER" /\ SellOther_says e kids x
  | InvTransaction_SellStock x => nm = bs "SELLSTOCK" /\ SellStock_says e kids x
  | InvTransaction_Split x => nm = bs "SPLIT" /\ Split_says e kids x
  | InvTransaction_Transfer x => nm = bs "TRANSFER" /\ Transfer_says e kids x
  end.

(** The list of transactions holds nothing else but the two dates, transactions
    and blank text. *)
Definition InvTranList_says (e : env) (kids : list node) (r : InvTranList) : Prop :=
  is_date e "DTSTART" kids (InvTranList_DtStart r) /\
  is_date e "DTEND" kids (InvTranList_DtEnd r) /\
  are_listed (InvTransaction_says e) (others ["DTSTART"; "DTEND"; "INVBANKTRAN"] kids) (InvTranList_InvTransactions r) /\
  are_parts (InvBankTransaction_says e) "INVBANKTRAN" kids (InvTranList_BankTransactions r).

Definition InvPosition_says (e : env) (kids : list node) (r : InvPosition) : Prop :=
  is_part (SecurityID_says e) "SECID" kids (InvPosition_SecID r) /\
  is_choice enum_subAcctType "HELDINACCT" kids (InvPosition_HeldInAcct r) /\
  is_choice enum_posType "POSTYPE" kids (InvPosition_PosType r) /\
  is_amount "UNITS" kids (InvPosition_Units r) /\
  is_amount "UNITPRICE" kids (InvPosition_UnitPrice r) /\
  is_amount "MKTVAL" kids (InvPosition_MktVal r) /\
  is_amount "AVGCOSTBASIS" kids (InvPosition_AvgCostBasis r) /\
  is_date e "DTPRICEASOF" kids (InvPosition_DtPriceAsOf r) /\
  is_opt_part (Currency_says e) "CURRENCY" kids (InvPosition_Currency r) /\
  is_text "MEMO" kids (InvPosition_Memo r) /\
  is_choice enum_inv401kSource "INV401KSOURCE" kids (InvPosition_Inv401kSource r).

Definition DebtPosition_says (e : env) (kids : list node) (r : DebtPosition) : Prop :=
  is_part (InvPosition_says e) "INVPOS" kids (DebtPosition_InvPos r).

Definition MFPosition_says (e : env) (kids : list node) (r : MFPosition) : Prop :=
  is_part (InvPosition_says e) "INVPOS" kids (MFPosition_InvPos r) /\
  is_amount "UNITSSTREET" kids (MFPosition_UnitsStreet r) /\
  is_amount "UNITSUSER" kids (MFPosition_UnitsUser r) /\
  is_flag "REINVDIV" kids (MFPosition_ReinvDiv r) /\
  is_flag "REINVCG" kids (MFPosition_ReinvCG r).

Definition OptPosition_says (e : env) (kids : list node) (r : OptPosition) : Prop :=
  is_part (InvPosition_says e) "INVPOS" kids (OptPosition_InvPos r) /\
  is_choice enum_secured "SECURED" kids (OptPosition_Secured r).

Definition OtherPosition_says (e : env) (kids : list node) (r : OtherPosition) : Prop :=
  is_part (InvPosition_says e) "INVPOS" kids (OtherPosition_InvPos r).

Definition StockPosition_says (e : env) (kids : list node) (r : StockPosition) : Prop :=
  is_part (InvPosition_says e) "INVPOS" kids (StockPosition_InvPos r) /\
  is_amount "UNITSSTREET" kids (StockPosition_UnitsStreet r) /\
  is_amount "UNITSUSER" kids (StockPosition_UnitsUser r) /\
  is_flag "REINVDIV" kids (StockPosition_ReinvDiv r).

Definition InvBalance_says (e : env) (kids : list node) (r : InvBalance) : Prop :=
  let ballist := inner "BALLIST" kids in
  is_amount "AVAILCASH" kids (InvBalance_AvailCash r) /\
  is_amount "MARGINBALANCE" kids (InvBalance_MarginBalance r) /\
  is_amount "SHORTBALANCE" kids (InvBalance_ShortBalance r) /\
  is_amount "BUYPOWER" kids (InvBalance_BuyPower r) /\
  are_parts (Balance_says e) "BAL" ballist (InvBalance_BalList r).

Definition OO_says (e : env) (kids : list node) (r : OO) : Prop :=
  is_text "FITID" kids (OO_FiTID r) /\
  is_text "SRVRTID" kids (OO_SrvrTID r) /\
  is_part (SecurityID_says e) "SECID" kids (OO_SecID r) /\
  is_date e "DTPLACED" kids (OO_DtPlaced r) /\
  is_amount "UNITS" kids (OO_Units r) /\
  is_choice enum_subAcctType "SUBACCT" kids (OO_SubAcct r) /\
  is_choice enum_duration "DURATION" kids (OO_Duration r) /\
  is_choice enum_restriction "RESTRICTION" kids (OO_Restriction r) /\
  is_amount "MINUNITS" kids (OO_MinUnits r) /\
  is_amount "LIMITPRICE" kids (OO_LimitPrice r) /\
  is_amount "STOPPRICE" kids (OO_StopPrice r) /\
  is_text "MEMO" kids (OO_Memo r) /\
  is_opt_part (Currency_says e) "CURRENCY" kids (OO_Currency r) /\
  is_choice enum_inv401kSource "INV401KSOURCE" kids (OO_Inv401kSource r).

Definition OOBuyDebt_says (e : env) (kids : list node) (r : OOBuyDebt) : Prop :=
  is_part (OO_says e) "OO" kids (OOBuyDebt_OO r) /\
  is_flag "AUCTION" kids (OOBuyDebt_Auction r) /\
  is_opt_date e "DTAUCTION" kids (OOBuyDebt_DtAuction r).

Definition OOBuyMF_says (e : env) (kids : list node) (r : OOBuyMF) : Prop :=
  is_part (OO_says e) "OO" kids (OOBuyMF_OO r) /\
  is_choice enum_buyType "BUYTYPE" kids (OOBuyMF_BuyType r) /\
  is_choice enum_unitType "UNITTYPE" kids (OOBuyMF_UnitType r).

Definition OOBuyOpt_says (e : env) (kids : list node) (r : OOBuyOpt) : Prop :=
  is_part (OO_says e) "OO" kids (OOBuyOpt_OO r) /\
  is_choice enum_optBuyType "OPTBUYTYPE" kids (OOBuyOpt_OptBuyType r).

Definition OOBuyOther_says (e : env) (kids : list node) (r : OOBuyOther) : Prop :=
  is_part (OO_says e) "OO" kids (OOBuyOther_OO r) /\
  is_choice enum_unitType "UNITTYPE" kids (OOBuyOther_UnitType r).

Definition OOBuyStock_says (e : env) (kids : list node) (r : OOBuyStock) : Prop :=
  is_part (OO_says e) "OO" kids (OOBuyStock_OO r) /\
  is_choice enum_buyType "BUYTYPE" kids (OOBuyStock_BuyType r).

Definition OOSellDebt_says (e : env) (kids : list node) (r : OOSellDebt) : Prop :=
  is_part (OO_says e) "OO" kids (OOSellDebt_OO r).

Definition OOSellMF_says (e : env) (kids : list node) (r : OOSellMF) : Prop :=
  is_part (OO_says e) "OO" kids (OOSellMF_OO r) /\
  is_choice enum_sellType "SELLTYPE" kids (OOSellMF_SellType r) /\
  is_choice enum_unitType "UNITTYPE" kids (OOSellMF_UnitType r) /\
  is_flag "SELLALL" kids (OOSellMF_SellAll r).

Definition OOSellOpt_says (e : env) (kids : list node) (r : OOSellOpt) : Prop :=
  is_part (OO_says e) "OO" kids (OOSellOpt_OO r) /\
  is_choice enum_optSellType "OPTSELLTYPE" kids (OOSellOpt_OptSellType r).

Definition OOSellOther_says (e : env) (kids : list node) (r : OOSellOther) : Prop :=
  is_part (OO_says e) "OO" kids (OOSellOther_OO r) /\
  is_choice enum_unitType "UNITTYPE" kids (OOSellOther_UnitType r).

Definition OOSellStock_says (e : env) (kids : list node) (r : OOSellStock) : Prop :=
  is_part (OO_says e) "OO" kids (OOSellStock_OO r) /\
  is_choice enum_sellType "SELLTYPE" kids (OOSellStock_SellType r).

Definition OOSwitchMF_says (e : env) (kids : list node) (r : OOSwitchMF) : Prop :=
  is_part (OO_says e) "OO" kids (OOSwitchMF_OO r) /\
  is_part (SecurityID_says e) "SECID" kids (OOSwitchMF_SecID r) /\
  is_choice enum_unitType "UNITTYPE" kids (OOSwitchMF_UnitType r) /\
  is_flag "SWITCHALL" kids (OOSwitchMF_SwitchAll r).

Definition ContribSecurity_says (e : env) (kids : list node) (r : ContribSecurity) : Prop :=
  is_part (SecurityID_says e) "SECID" kids (ContribSecurity_SecID r) /\
  is_amount "PRETAXCONTRIBPCT" kids (ContribSecurity_PreTaxContribPct r) /\
  is_amount "PRETAXCONTRIBAMT" kids (ContribSecurity_PreTaxContribAmt r) /\
  is_amount "AFTERTAXCONTRIBPCT" kids (ContribSecurity_AfterTaxContribPct r) /\
  is_amount "AFTERTAXCONTRIBAMT" kids (ContribSecurity_AfterTaxContribAmt r) /\
  is_amount "MATCHCONTRIBPCT" kids (ContribSecurity_MatchContribPct r) /\
  is_amount "MATCHCONTRIBAMT" kids (ContribSecurity_MatchContribAmt r) /\
  is_amount "PROFITSHARINGCONTRIBPCT" kids (ContribSecurity_ProfitSharingContribPct r) /\
  is_amount "PROFITSHARINGCONTRIBAMT" kids (ContribSecurity_ProfitSharingContribAmt r) /\
  is_amount "ROLLOVERCONTRIBPCT" kids (ContribSecurity_RolloverContribPct r) /\
  is_amount "ROLLOVERCONTRIBAMT" kids (ContribSecurity_RolloverContribAmt r) /\
  is_amount "OTHERVESTPCT" kids (ContribSecurity_OtherVestPct r) /\
  is_amount "OTHERVESTAMT" kids (ContribSecurity_OtherVestAmt r) /\
  is_amount "OTHERNONVESTPCT" kids (ContribSecurity_OtherNonVestPct r) /\
  is_amount "OTHERNONVESTAMT" kids (ContribSecurity_OtherNonVestAmt r).

Definition VestInfo_says (e : env) (kids : list node) (r : VestInfo) : Prop :=
  is_opt_date e "VESTDATE" kids (VestInfo_VestDate r) /\
  is_amount "VESTPCT" kids (VestInfo_VestPct r).

Definition Inv401KSummaryAggregate_says (e : env) (kids : list node) (r : Inv401KSummaryAggregate) : Prop :=
  is_amount "PRETAX" kids (Inv401KSummaryAggregate_PreTax r) /\
  is_amount "AFTERTAX" kids (Inv401KSummaryAggregate_AfterTax r) /\
  is_amount "MATCH" kids (Inv401KSummaryAggregate_Match r) /\
  is_amount "PROFITSHARING" kids (Inv401KSummaryAggregate_ProfitSharing r) /\
  is_amount "ROLLOVER" kids (Inv401KSummaryAggregate_Rollover r) /\
  is_amount "OTHERVEST" kids (Inv401KSummaryAggregate_OtherVest r) /\
  is_amount "OTHERNONVEST" kids (Inv401KSummaryAggregate_OtherNonVest r) /\
  is_amount "TOTAL" kids (Inv401KSummaryAggregate_Total r).

Definition Inv401KSummaryPeriod_says (e : env) (kids : list node) (r : Inv401KSummaryPeriod) : Prop :=
  is_date e "DTSTART" kids (Inv401KSummaryPeriod_DtStart r) /\
  is_date e "DTEND" kids (Inv401KSummaryPeriod_DtEnd r) /\
  is_opt_part (Inv401KSummaryAggregate_says e) "CONTRIBUTIONS" kids (Inv401KSummaryPeriod_Contributions r) /\
  is_opt_part (Inv401KSummaryAggregate_says e) "WITHDRAWLS" kids (Inv401KSummaryPeriod_Withdrawls r) /\
  is_opt_part (Inv401KSummaryAggregate_says e) "EARNINGS" kids (Inv401KSummaryPeriod_Earnings r).

(** The tag of the XMLName of LoanInfo is VESTINFO: no LOANINFO element can be read
    (see C52). *)
Definition Inv401K_says (e : env) (kids : list node) (r : Inv401K) : Prop :=
  let matchinfo := inner "MATCHINFO" kids in
  let contribinto := inner "CONTRIBINTO" kids in
  let inv401ksummary := inner "INV401KSUMMARY" kids in
  is_text "EMPLOYERNAME" kids (Inv401K_EmployerName r) /\
  is_text "PLANID" kids (Inv401K_PlanID r) /\
  is_opt_date e "PLANJOINDATE" kids (Inv401K_PlanJoinDate r) /\
  is_text "EMPLOYERCONTACTINFO" kids (Inv401K_EmployerContactInfo r) /\
  is_text "BROKERCONTACTINFO" kids (Inv401K_BrokerContactInfo r) /\
  is_amount "DEFERPCTPRETAX" kids (Inv401K_DeferPctPreTax r) /\
  is_amount "DEFERPCTAFTERTAX" kids (Inv401K_DeferPctAfterTax r) /\
  is_amount "MATCHPCT" matchinfo (Inv401K_MatchPct r) /\
  is_amount "MAXMATCHAMT" matchinfo (Inv401K_MaxMatchAmt r) /\
  is_amount "MAXMATCHPCT" matchinfo (Inv401K_MaxMatchPct r) /\
  is_opt_date e "STARTOFYEAR" matchinfo (Inv401K_StartOfYear r) /\
  is_amount "BASEMATCHAMT" matchinfo (Inv401K_BaseMatchAmt r) /\
  is_amount "BASEMATCHPCT" matchinfo (Inv401K_BaseMatchPct r) /\
  are_parts (ContribSecurity_says e) "CONTRIBSECURITY" contribinto (Inv401K_ContribInfo r) /\
  is_amount "CURRENTVESTPCT" kids (Inv401K_CurrentVestPct r) /\
  are_parts (VestInfo_says e) "VESTINFO" kids (Inv401K_VestInfo r) /\
  (called "LOANINFO" kids = [] /\ Inv401K_LoanInfo r = []) /\
  is_part (Inv401KSummaryPeriod_says e) "YEARTODATE" inv401ksummary (Inv401K_YearToDateSummary r) /\
  is_opt_part (Inv401KSummaryPeriod_says e) "INCEPTODATE" inv401ksummary (Inv401K_InceptToDateSummary r) /\
  is_opt_part (Inv401KSummaryPeriod_says e) "PERIODTODATE" inv401ksummary (Inv401K_PeriodToDate r).

Definition Inv401KBal_says (e : env) (kids : list node) (r : Inv401KBal) : Prop :=
  let ballist := inner "BALLIST" kids in
  is_amount "CASHBAL" kids (Inv401KBal_CashBal r) /\
  is_amount "PRETAX" kids (Inv401KBal_PreTax r) /\
  is_amount "AFTERTAX" kids (Inv401KBal_AfterTax r) /\
  is_amount "MATCH" kids (Inv401KBal_Match r) /\
  is_amount "PROFITSHARING" kids (Inv401KBal_ProfitSharing r) /\
  is_amount "ROLLOVER" kids (Inv401KBal_Rollover r) /\
  is_amount "OTHERVEST" kids (Inv401KBal_OtherVest r) /\
  is_amount "OTHERNONVEST" kids (Inv401KBal_OtherNonVest r) /\
  is_amount "TOTAL" kids (Inv401KBal_Total r) /\
  are_parts (Balance_says e) "BAL" ballist (Inv401KBal_BalList r).

Definition Position_says (e : env) (nm : str) (kids : list node) (r : Position) : Prop :=
  match r with
  | Position_DebtPosition x => nm = bs "POSDEBT" /\ DebtPosition_says e kids x
  | Position_MFPosition x => nm = bs "POSMF" /\ MFPosition_says e kids x
  | Position_OptPosition x => nm = bs "POSOPT" /\ OptPosition_says e kids x
  | Position_OtherPosition x => nm = bs "POSOTHER" /\ OtherPosition_says e kids x
  | Position_StockPosition x => nm = bs "POSSTOCK" /\ StockPosition_says e kids x
  end.

Definition OpenOrder_says (e : env) (nm : str) (kids : list node) (r : OpenOrder) : Prop :=
  match r with
  | OpenOrder_OOBuyDebt x => nm = bs "OOBUYDEBT" /\ OOBuyDebt_says e kids x
  | OpenOrder_OOBuyMF x => nm = bs "OOBUYMF" /\ OOBuyMF_says e kids x
  | OpenOrder_OOBuyOpt x => nm = bs "OOBUYOPT" /\ OOBuyOpt_says e kids x
  | OpenOrder_OOBuyOther x => nm = bs "OOBUYOTHER" /\ OOBuyOther_says e kids x
  | OpenOrder_OOBuyStock x => nm = bs "OOBUYSTOCK" /\ OOBuyStock_says e kids x
  | OpenOrder_OOSellDebt x => nm = bs "OOSELLDEBT" /\ OOSellDebt_says e kids x
  | OpenOrder_OOSellMF x => nm = bs "OOSELLMF" /\ OOSellMF_says e kids x
  | OpenOrder_OOSellOpt x => nm = bs "OOSELLOPT" /\ OOSellOpt_says e kids x
  | OpenOrder_OOSellOther x => nm = bs "OOSELLOTHER" /\ OOSellOther_says e kids x
  | OpenOrder_OOSellStock x => nm = bs "OOSELLSTOCK" /\ OOSellStock_says e kids x
  | OpenOrder_OOSwitchMF x => nm = bs "SWITCHMF" /\ OOSwitchMF_says e kids x
  end.

Definition InvStatementResponse_says (e : env) (kids : list node) (r : InvStatementResponse) : Prop :=
  let invstmtrs := inner "INVSTMTRS" kids in
  is_text "TRNUID" kids (InvStatementResponse_TrnUID r) /\
  is_part (Status_says e) "STATUS" kids (InvStatementResponse_Status r) /\
  is_text "CLTCOOKIE" kids (InvStatementResponse_CltCookie r) /\
  is_date e "DTASOF" invstmtrs (InvStatementResponse_DtAsOf r) /\
  is_currency e "CURDEF" invstmtrs (InvStatementResponse_CurDef r) /\
  is_part (InvAcct_says e) "INVACCTFROM" invstmtrs (InvStatementResponse_InvAcctFrom r) /\
  is_opt_part (InvTranList_says e) "INVTRANLIST" invstmtrs (InvStatementResponse_InvTranList r) /\
  are_listed (Position_says e) (inner "INVPOSLIST" invstmtrs) (InvStatementResponse_InvPosList r) /\
  is_opt_part (InvBalance_says e) "INVBAL" invstmtrs (InvStatementResponse_InvBal r) /\
  are_listed (OpenOrder_says e) (inner "INVOOLIST" invstmtrs) (InvStatementResponse_InvOOList r) /\
  is_text "MKTGINFO" invstmtrs (InvStatementResponse_MktgInfo r) /\
  is_opt_part (Inv401K_says e) "INV401K" invstmtrs (InvStatementResponse_Inv401K r) /\
  is_opt_part (Inv401KBal_says e) "INV401KBAL" invstmtrs (InvStatementResponse_Inv401KBal r).

Definition ProfileRequest_says (e : env) (kids : list node) (r : ProfileRequest) : Prop :=
  let profrq := inner "PROFRQ" kids in
  is_text "TRNUID" kids (ProfileRequest_TrnUID r) /\
  is_text "CLTCOOKIE" kids (ProfileRequest_CltCookie r) /\
  is_text "TAN" kids (ProfileRequest_TAN r) /\
  is_text "CLIENTROUTING" profrq (ProfileRequest_ClientRouting r) /\
  is_date e "DTPROFUP" profrq (ProfileRequest_DtProfUp r).

Definition SignonInfo_says (e : env) (kids : list node) (r : SignonInfo) : Prop :=
  is_text "SIGNONREALM" kids (SignonInfo_SignonRealm r) /\
  is_number "MIN" kids (SignonInfo_Min r) /\
  is_number "MAX" kids (SignonInfo_Max r) /\
  is_choice enum_charType "CHARTYPE" kids (SignonInfo_CharType r) /\
  is_flag "CASESEN" kids (SignonInfo_CaseSen r) /\
  is_flag "SPECIAL" kids (SignonInfo_Special r) /\
  is_flag "SPACES" kids (SignonInfo_Spaces r) /\
  is_flag "PINCH" kids (SignonInfo_PinCh r) /\
  is_flag "CHGPINFIRST" kids (SignonInfo_ChgPinFirst r) /\
  is_text "USERCRED1LABEL" kids (SignonInfo_UserCred1Label r) /\
  is_text "USERCRED2LABEL" kids (SignonInfo_UserCred2Label r) /\
  is_flag "CLIENTUIDREQ" kids (SignonInfo_ClientUIDReq r) /\
  is_flag "AUTHTOKENFIRST" kids (SignonInfo_AuthTokenFirst r) /\
  is_text "AUTHTOKENLABEL" kids (SignonInfo_AuthTokenLabel r) /\
  is_text "AUTHTOKENINFOURL" kids (SignonInfo_AuthTokenInfoURL r) /\
  is_flag "MFACHALLENGESUPT" kids (SignonInfo_MFAChallengeSupt r) /\
  is_flag "MFACHALLENGEFIRST" kids (SignonInfo_MFAChallengeFIRST r) /\
  is_flag "ACCESSTOKENREQ" kids (SignonInfo_AccessTokenReq r).

Definition MessageSet_says (e : env) (kids : list node) (r : MessageSet) : Prop :=
  let msgsetcore := inner "MSGSETCORE" kids in
  is_number "VER" msgsetcore (MessageSet_Ver r) /\
  is_text "URL" msgsetcore (MessageSet_URL r) /\
  is_choice enum_ofxSec "OFXSEC" msgsetcore (MessageSet_OfxSec r) /\
  is_flag "TRANSPSEC" msgsetcore (MessageSet_TranspSec r) /\
  is_text "SIGNONREALM" msgsetcore (MessageSet_SignonRealm r) /\
  values (fun s => Some (trim_space s)) "LANGUAGE" msgsetcore (MessageSet_Language r) /\
  is_choice enum_syncMode "SYNCMODE" msgsetcore (MessageSet_SyncMode r) /\
  is_flag "REFRESHSUPT" msgsetcore (MessageSet_RefreshSupt r) /\
  is_flag "RESPFILEER" msgsetcore (MessageSet_RespFileER r) /\
  is_text "SPNAME" msgsetcore (MessageSet_SpName r).

(** A message set is an element of any name that holds one other element, whose
    name is the name of the set. *)
Definition MessageSetElement_says (e : env) (nm : str) (sub : list node) (r : MessageSet) : Prop :=
  exists kids, solid sub = [Elem (MessageSet_Name r) kids] /\ MessageSet_says e kids r.

Definition ProfileResponse_says (e : env) (kids : list node) (r : ProfileResponse) : Prop :=
  let profrs := inner "PROFRS" kids in
  let signoninfolist := inner "SIGNONINFOLIST" profrs in
  is_text "TRNUID" kids (ProfileResponse_TrnUID r) /\
  is_part (Status_says e) "STATUS" kids (ProfileResponse_Status r) /\
  is_text "CLTCOOKIE" kids (ProfileResponse_CltCookie r) /\
  are_listed (MessageSetElement_says e) (inner "MSGSETLIST" profrs) (ProfileResponse_MessageSetList r) /\
  are_parts (SignonInfo_says e) "SIGNONINFO" signoninfolist (ProfileResponse_SignonInfoList r) /\
  is_date e "DTPROFUP" profrs (ProfileResponse_DtProfUp r) /\
  is_text "FINAME" profrs (ProfileResponse_FiName r) /\
  is_text "ADDR1" profrs (ProfileResponse_Addr1 r) /\
  is_text "ADDR2" profrs (ProfileResponse_Addr2 r) /\
  is_text "ADDR3" profrs (ProfileResponse_Addr3 r) /\
  is_text "CITY" profrs (ProfileResponse_City r) /\
  is_text "STATE" profrs (ProfileResponse_State r) /\
  is_text "POSTALCODE" profrs (ProfileResponse_PostalCode r) /\
  is_text "COUNTRY" profrs (ProfileResponse_Country r) /\
  is_text "CSPHONE" profrs (ProfileResponse_CsPhone r) /\
  is_text "TSPHONE" profrs (ProfileResponse_TsPhone r) /\
  is_text "FAXPHONE" profrs (ProfileResponse_FaxPhone r) /\
  is_text "URL" profrs (ProfileResponse_URL r) /\
  is_text "EMAIL" profrs (ProfileResponse_Email r).

(** * Messages and responses *)

(** What the message is that the element with these children says. *)
Definition message_says (e : env) (kids : list node) (m : Message) : Prop :=
  match m with
  | MsgAcctInfoRequest r => AcctInfoRequest_says e kids r
  | MsgStatementRequest r => StatementRequest_says e kids r
  | MsgCCStatementRequest r => CCStatementRequest_says e kids r
  | MsgInvStatementRequest r => InvStatementRequest_says e kids r
  | MsgSecListRequest r => SecListRequest_says e kids r
  | MsgProfileRequest r => ProfileRequest_says e kids r
  | MsgAcctInfoResponse r => AcctInfoResponse_says e kids r
  | MsgStatementResponse r => StatementResponse_says e kids r
  | MsgCCStatementResponse r => CCStatementResponse_says e kids r
  | MsgInvStatementResponse r => InvStatementResponse_says e kids r
  | MsgSecListResponse r => SecListResponse_says e kids r
  | MsgSecurityList r => SecurityList_says e kids r
  | MsgProfileResponse r => ProfileResponse_says e kids r
  end.

(** The element of a message in the set with this name. *)
Definition element_says (e : env) (set : str) (m : Message) (n : node) : Prop :=
  belongs_in m = set /\ exists kids, n = Elem (transaction_tag m) kids /\ message_says e kids m.

(** What a response document says: first the sign-on set, whose only element is
    the sign-on response, then known message sets in any order and number, all of
    whose elements are messages of the set. The messages of a set are those of
    all elements with its name, in the order of the document. *)
Definition response_says (e : env) (ofx : node) (r : Response) : Prop :=
  exists kids before sonrs after sets,
    ofx = Elem (bs "OFX") kids /\
    solid kids = Elem (bs "SIGNONMSGSRSV1") (before ++ Elem (bs "SONRS") sonrs :: after) :: sets /\
    Forall no_element before /\ solid after = [] /\
    SignonResponse_says e sonrs (rs_signon r) /\
    Forall (fun n => exists set sub, n = Elem set sub /\ In set response_set_names) sets /\
    forall set ms, In (set, ms) (response_sets (rs_slots r)) ->
      Forall2 (element_says e set) ms (filed_under set sets).

(** What a request document says, to whoever reads it. The library does not read
    requests. *)
Definition request_set_names : list str := map fst (request_sets no_messages).

Definition request_says (e : env) (ofx : node) (signon : SignonRequest) (slots : Slots) : Prop :=
  exists kids son sonrq sets,
    ofx = Elem (bs "OFX") kids /\
    solid kids = Elem (bs "SIGNONMSGSRQV1") son :: sets /\
    solid son = [Elem (bs "SONRQ") sonrq] /\
    SignonRequest_says e sonrq signon /\
    Forall (fun n => exists set sub, n = Elem set sub /\ In set request_set_names) sets /\
    forall set ms, In (set, ms) (request_sets slots) ->
      Forall2 (element_says e set) ms (filed_under set sets).

(** A request all of whose fields have a text form that says the same. *)
Definition request_representable (e : env) (q : Request) : Prop :=
  representable e SignonRequest_ty (SignonRequest_to (rq_signon q)) /\
  forall set ms m, In (set, ms) (request_sets (rq_slots q)) -> In m ms -> message_representable e m.
