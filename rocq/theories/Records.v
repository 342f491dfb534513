(** The structs of /repo as records, transcribed by tools/gen_records.py.
    Fields are in the order of the Go struct; a pointer is an [option], a slice a
    [list], an interface the sum of the types that implement it in the library.
    Int is [Z], Amount [Q], Date [gotime], String, UID, CurrSymbol and string are
    [str], Boolean is [bool], an enumeration is [N] (see Enums.v).

    Simplification: the XMLName fields are left out. They hold no data of their
    own: encoding/xml writes the tag's name or, for the structs whose XMLName
    has no tag, the name of the field that holds the struct, which is also what
    decoding stores there. *)
From Coq Require Import QArith.
From Verif Require Import GoStr GoTime.

(** common.go:264-269 *)
Record Status := mkStatus {
  Status_Code : Z;
  Status_Severity : str;
  Status_Message : str
}.

(** common.go:308-315 *)
Record BankAcct := mkBankAcct {
  BankAcct_BankID : str;
  BankAcct_BranchID : str;
  BankAcct_AcctID : str;
  BankAcct_AcctType : N;
  BankAcct_AcctKey : str
}.

(** common.go:332-336 *)
Record CCAcct := mkCCAcct {
  CCAcct_AcctID : str;
  CCAcct_AcctKey : str
}.

(** common.go:347-351 *)
Record InvAcct := mkInvAcct {
  InvAcct_BrokerID : str;
  InvAcct_AcctID : str
}.

(** common.go:358-362 *)
Record Currency := mkCurrency {
  Currency_CurRate : Q;
  Currency_CurSym : str
}.

(** seclist.go:10-14 *)
Record SecurityID := mkSecurityID {
  SecurityID_UniqueID : str;
  SecurityID_UniqueIDType : str
}.

(** seclist.go:19-25 *)
Record SecurityRequest := mkSecurityRequest {
  SecurityRequest_SecID : option SecurityID;
  SecurityRequest_Ticker : str;
  SecurityRequest_FiID : str
}.

(** seclist.go:29-36 *)
Record SecListRequest := mkSecListRequest {
  SecListRequest_TrnUID : str;
  SecListRequest_CltCookie : str;
  SecListRequest_TAN : str;
  SecListRequest_Securities : list SecurityRequest
}.

(** seclist.go:64-71 *)
Record SecListResponse := mkSecListResponse {
  SecListResponse_TrnUID : str;
  SecListResponse_Status : Status;
  SecListResponse_CltCookie : str
}.

(** seclist.go:102-113 *)
Record SecInfo := mkSecInfo {
  SecInfo_SecID : SecurityID;
  SecInfo_SecName : str;
  SecInfo_Ticker : str;
  SecInfo_FiID : str;
  SecInfo_Rating : str;
  SecInfo_UnitPrice : Q;
  SecInfo_DtAsOf : option gotime;
  SecInfo_Currency : option Currency;
  SecInfo_Memo : str
}.

(** seclist.go:116-133 *)
Record DebtInfo := mkDebtInfo {
  DebtInfo_SecInfo : SecInfo;
  DebtInfo_ParValue : Q;
  DebtInfo_DebtType : N;
  DebtInfo_DebtClass : N;
  DebtInfo_CouponRate : Q;
  DebtInfo_DtCoupon : option gotime;
  DebtInfo_CouponFreq : N;
  DebtInfo_CallPrice : Q;
  DebtInfo_YieldToCall : Q;
  DebtInfo_DtCall : option gotime;
  DebtInfo_CallType : N;
  DebtInfo_YieldToMat : Q;
  DebtInfo_DtMat : option gotime;
  DebtInfo_AssetClass : N;
  DebtInfo_FiAssetClass : str
}.

(** seclist.go:147-151 *)
Record AssetPortion := mkAssetPortion {
  AssetPortion_AssetClass : N;
  AssetPortion_Percent : Q
}.

(** seclist.go:156-160 *)
Record FiAssetPortion := mkFiAssetPortion {
  FiAssetPortion_FiAssetClass : str;
  FiAssetPortion_Percent : Q
}.

(** seclist.go:163-171 *)
Record MFInfo := mkMFInfo {
  MFInfo_SecInfo : SecInfo;
  MFInfo_MfType : N;
  MFInfo_Yield : Q;
  MFInfo_DtYieldAsOf : option gotime;
  MFInfo_AssetClasses : list AssetPortion;
  MFInfo_FiAssetClasses : list FiAssetPortion
}.

(** seclist.go:184-194 *)
Record OptInfo := mkOptInfo {
  OptInfo_SecInfo : SecInfo;
  OptInfo_OptType : N;
  OptInfo_StrikePrice : Q;
  OptInfo_DtExpire : gotime;
  OptInfo_ShPerCtrct : Z;
  OptInfo_SecID : option SecurityID;
  OptInfo_AssetClass : N;
  OptInfo_FiAssetClass : str
}.

(** seclist.go:208-214 *)
Record OtherInfo := mkOtherInfo {
  OtherInfo_SecInfo : SecInfo;
  OtherInfo_TypeDesc : str;
  OtherInfo_AssetClass : N;
  OtherInfo_FiAssetClass : str
}.

(** seclist.go:227-235 *)
Record StockInfo := mkStockInfo {
  StockInfo_SecInfo : SecInfo;
  StockInfo_StockType : N;
  StockInfo_Yield : Q;
  StockInfo_DtYieldAsOf : option gotime;
  StockInfo_AssetClass : N;
  StockInfo_FiAssetClass : str
}.

(** The types that satisfy the interface Security, seclist.go:272-319 *)
Inductive Security :=
| Security_DebtInfo (x : DebtInfo)
| Security_MFInfo (x : MFInfo)
| Security_OptInfo (x : OptInfo)
| Security_OtherInfo (x : OtherInfo)
| Security_StockInfo (x : StockInfo).

(** seclist.go:249-252 *)
Record SecurityList := mkSecurityList {
  SecurityList_Securities : list Security
}.

(** signon.go:11-24 *)
Record SignonRequest := mkSignonRequest {
  SignonRequest_DtClient : gotime;
  SignonRequest_UserID : str;
  SignonRequest_UserPass : str;
  SignonRequest_UserKey : str;
  SignonRequest_GenUserKey : bool;
  SignonRequest_Language : str;
  SignonRequest_Org : str;
  SignonRequest_Fid : str;
  SignonRequest_AppID : str;
  SignonRequest_AppVer : str;
  SignonRequest_ClientUID : str
}.

(** signon.go:62-75 *)
Record SignonResponse := mkSignonResponse {
  SignonResponse_Status : Status;
  SignonResponse_DtServer : gotime;
  SignonResponse_UserKey : str;
  SignonResponse_TsKeyExpire : option gotime;
  SignonResponse_Language : str;
  SignonResponse_DtProfUp : option gotime;
  SignonResponse_DtAcctUp : option gotime;
  SignonResponse_Org : str;
  SignonResponse_Fid : str;
  SignonResponse_SessCookie : str;
  SignonResponse_AccessKey : str
}.

(** signup.go:10-17 *)
Record AcctInfoRequest := mkAcctInfoRequest {
  AcctInfoRequest_TrnUID : str;
  AcctInfoRequest_CltCookie : str;
  AcctInfoRequest_TAN : str;
  AcctInfoRequest_DtAcctUp : gotime
}.

(** signup.go:41-57 *)
Record HolderInfo := mkHolderInfo {
  HolderInfo_FirstName : str;
  HolderInfo_MiddleName : str;
  HolderInfo_LastName : str;
  HolderInfo_Addr1 : str;
  HolderInfo_Addr2 : str;
  HolderInfo_Addr3 : str;
  HolderInfo_City : str;
  HolderInfo_State : str;
  HolderInfo_PostalCode : str;
  HolderInfo_Country : str;
  HolderInfo_DayPhone : str;
  HolderInfo_EvePhone : str;
  HolderInfo_Email : str;
  HolderInfo_HolderType : N
}.

(** signup.go:62-74 *)
Record BankAcctInfo := mkBankAcctInfo {
  BankAcctInfo_BankAcctFrom : BankAcct;
  BankAcctInfo_SupTxDl : bool;
  BankAcctInfo_XferSrc : bool;
  BankAcctInfo_XferDest : bool;
  BankAcctInfo_MaturityDate : gotime;
  BankAcctInfo_MaturityAmt : Q;
  BankAcctInfo_MinBalReq : Q;
  BankAcctInfo_AcctClassification : N;
  BankAcctInfo_OverdraftLimit : Q;
  BankAcctInfo_SvcStatus : N
}.

(** signup.go:84-92 *)
Record CCAcctInfo := mkCCAcctInfo {
  CCAcctInfo_CCAcctFrom : CCAcct;
  CCAcctInfo_SupTxDl : bool;
  CCAcctInfo_XferSrc : bool;
  CCAcctInfo_XferDest : bool;
  CCAcctInfo_AcctClassification : N;
  CCAcctInfo_SvcStatus : N
}.

(** signup.go:102-110 *)
Record InvAcctInfo := mkInvAcctInfo {
  InvAcctInfo_InvAcctFrom : InvAcct;
  InvAcctInfo_UsProductType : N;
  InvAcctInfo_Checking : bool;
  InvAcctInfo_SvcStatus : N;
  InvAcctInfo_InvAcctType : N;
  InvAcctInfo_OptionLevel : str
}.

(** signup.go:120-134 *)
Record AcctInfo := mkAcctInfo {
  AcctInfo_Name : str;
  AcctInfo_Desc : str;
  AcctInfo_Phone : str;
  AcctInfo_PrimaryHolder : HolderInfo;
  AcctInfo_SecondaryHolder : HolderInfo;
  AcctInfo_BankAcctInfo : option BankAcctInfo;
  AcctInfo_CCAcctInfo : option CCAcctInfo;
  AcctInfo_InvAcctInfo : option InvAcctInfo
}.

(** signup.go:138-146 *)
Record AcctInfoResponse := mkAcctInfoResponse {
  AcctInfoResponse_TrnUID : str;
  AcctInfoResponse_Status : Status;
  AcctInfoResponse_CltCookie : str;
  AcctInfoResponse_DtAcctUp : gotime;
  AcctInfoResponse_AcctInfo : list AcctInfo
}.

(** bank.go:12-24 *)
Record StatementRequest := mkStatementRequest {
  StatementRequest_TrnUID : str;
  StatementRequest_CltCookie : str;
  StatementRequest_TAN : str;
  StatementRequest_BankAcctFrom : BankAcct;
  StatementRequest_DtStart : option gotime;
  StatementRequest_DtEnd : option gotime;
  StatementRequest_Include : bool;
  StatementRequest_IncludePending : bool;
  StatementRequest_IncTranImg : bool
}.

(** bank.go:53-64 *)
Record Payee := mkPayee {
  Payee_Name : str;
  Payee_Addr1 : str;
  Payee_Addr2 : str;
  Payee_Addr3 : str;
  Payee_City : str;
  Payee_State : str;
  Payee_PostalCode : str;
  Payee_Country : str;
  Payee_Phone : str
}.

(** bank.go:88-98 *)
Record ImageData := mkImageData {
  ImageData_ImageType : N;
  ImageData_ImageRef : str;
  ImageData_ImageRefType : N;
  ImageData_ImageDelay : Z;
  ImageData_DtImageAvail : option gotime;
  ImageData_ImageTTL : Z;
  ImageData_CheckSup : N
}.

(** bank.go:104-132 *)
Record Transaction := mkTransaction {
  Transaction_TrnType : N;
  Transaction_DtPosted : gotime;
  Transaction_DtUser : option gotime;
  Transaction_DtAvail : option gotime;
  Transaction_TrnAmt : Q;
  Transaction_FiTID : str;
  Transaction_CorrectFiTID : str;
  Transaction_CorrectAction : N;
  Transaction_SrvrTID : str;
  Transaction_CheckNum : str;
  Transaction_RefNum : str;
  Transaction_SIC : Z;
  Transaction_PayeeID : str;
  Transaction_Name : str;
  Transaction_Payee : option Payee;
  Transaction_ExtdName : str;
  Transaction_BankAcctTo : option BankAcct;
  Transaction_CCAcctTo : option CCAcct;
  Transaction_Memo : str;
  Transaction_ImageData : list ImageData;
  Transaction_Currency : option Currency;
  Transaction_OrigCurrency : option Currency;
  Transaction_Inv401kSource : N
}.

(** bank.go:184-189 *)
Record TransactionList := mkTransactionList {
  TransactionList_DtStart : gotime;
  TransactionList_DtEnd : gotime;
  TransactionList_Transactions : list Transaction
}.

(** bank.go:211-226 *)
Record PendingTransaction := mkPendingTransaction {
  PendingTransaction_TrnType : N;
  PendingTransaction_DtTran : gotime;
  PendingTransaction_DtExpire : option gotime;
  PendingTransaction_TrnAmt : Q;
  PendingTransaction_RefNum : str;
  PendingTransaction_Name : str;
  PendingTransaction_ExtdName : str;
  PendingTransaction_Memo : str;
  PendingTransaction_ImageData : list ImageData;
  PendingTransaction_Currency : Currency;
  PendingTransaction_OrigCurrency : Currency
}.

(** bank.go:248-252 *)
Record PendingTransactionList := mkPendingTransactionList {
  PendingTransactionList_DtAsOf : gotime;
  PendingTransactionList_Transactions : list PendingTransaction
}.

(** bank.go:270-284 *)
Record Balance := mkBalance {
  Balance_Name : str;
  Balance_Desc : str;
  Balance_BalType : N;
  Balance_Value : Q;
  Balance_DtAsOf : option gotime;
  Balance_Currency : option Currency
}.

(** bank.go:300-318 *)
Record StatementResponse := mkStatementResponse {
  StatementResponse_TrnUID : str;
  StatementResponse_Status : Status;
  StatementResponse_CltCookie : str;
  StatementResponse_CurDef : str;
  StatementResponse_BankAcctFrom : BankAcct;
  StatementResponse_BankTranList : option TransactionList;
  StatementResponse_BankTranListP : option PendingTransactionList;
  StatementResponse_BalAmt : Q;
  StatementResponse_DtAsOf : gotime;
  StatementResponse_AvailBalAmt : option Q;
  StatementResponse_AvailDtAsOf : option gotime;
  StatementResponse_CashAdvBalAmt : option Q;
  StatementResponse_IntRate : option Q;
  StatementResponse_BalList : list Balance;
  StatementResponse_MktgInfo : str
}.

(** creditcard.go:10-22 *)
Record CCStatementRequest := mkCCStatementRequest {
  CCStatementRequest_TrnUID : str;
  CCStatementRequest_CltCookie : str;
  CCStatementRequest_TAN : str;
  CCStatementRequest_CCAcctFrom : CCAcct;
  CCStatementRequest_DtStart : option gotime;
  CCStatementRequest_DtEnd : option gotime;
  CCStatementRequest_Include : bool;
  CCStatementRequest_IncludePending : bool;
  CCStatementRequest_IncTranImg : bool
}.

(** creditcard.go:48-71 *)
Record CCStatementResponse := mkCCStatementResponse {
  CCStatementResponse_TrnUID : str;
  CCStatementResponse_Status : Status;
  CCStatementResponse_CltCookie : str;
  CCStatementResponse_CurDef : str;
  CCStatementResponse_CCAcctFrom : CCAcct;
  CCStatementResponse_BankTranList : option TransactionList;
  CCStatementResponse_BalAmt : Q;
  CCStatementResponse_DtAsOf : gotime;
  CCStatementResponse_AvailBalAmt : option Q;
  CCStatementResponse_AvailDtAsOf : option gotime;
  CCStatementResponse_CashAdvBalAmt : Q;
  CCStatementResponse_IntRatePurch : Q;
  CCStatementResponse_IntRateCash : Q;
  CCStatementResponse_IntRateXfer : Q;
  CCStatementResponse_RewardName : str;
  CCStatementResponse_RewardBal : Q;
  CCStatementResponse_RewardEarned : Q;
  CCStatementResponse_BalList : list Balance;
  CCStatementResponse_MktgInfo : str
}.

(** invstmt.go:11-28 *)
Record InvStatementRequest := mkInvStatementRequest {
  InvStatementRequest_TrnUID : str;
  InvStatementRequest_CltCookie : str;
  InvStatementRequest_TAN : str;
  InvStatementRequest_InvAcctFrom : InvAcct;
  InvStatementRequest_DtStart : option gotime;
  InvStatementRequest_DtEnd : option gotime;
  InvStatementRequest_Include : bool;
  InvStatementRequest_IncludeOO : bool;
  InvStatementRequest_PosDtAsOf : option gotime;
  InvStatementRequest_IncludePos : bool;
  InvStatementRequest_IncludeBalance : bool;
  InvStatementRequest_Include401K : bool;
  InvStatementRequest_Include401KBal : bool;
  InvStatementRequest_IncludeTranImage : bool
}.

(** invstmt.go:54-62 *)
Record InvTran := mkInvTran {
  InvTran_FiTID : str;
  InvTran_SrvrTID : str;
  InvTran_DtTrade : gotime;
  InvTran_DtSettle : option gotime;
  InvTran_ReversalFiTID : str;
  InvTran_Memo : str
}.

(** invstmt.go:66-91 *)
Record InvBuy := mkInvBuy {
  InvBuy_InvTran : InvTran;
  InvBuy_SecID : SecurityID;
  InvBuy_Units : Q;
  InvBuy_UnitPrice : Q;
  InvBuy_Markup : Q;
  InvBuy_Commission : Q;
  InvBuy_Taxes : Q;
  InvBuy_Fees : Q;
  InvBuy_Load : Q;
  InvBuy_Total : Q;
  InvBuy_Currency : Currency;
  InvBuy_OrigCurrency : Currency;
  InvBuy_SubAcctSec : N;
  InvBuy_SubAcctFund : N;
  InvBuy_LoanID : str;
  InvBuy_LoanPrincipal : Q;
  InvBuy_LoanInterest : Q;
  InvBuy_Inv401kSource : N;
  InvBuy_DtPayroll : option gotime;
  InvBuy_PriorYearContrib : bool
}.

(** invstmt.go:95-120 *)
Record InvSell := mkInvSell {
  InvSell_InvTran : InvTran;
  InvSell_SecID : SecurityID;
  InvSell_Units : Q;
  InvSell_UnitPrice : Q;
  InvSell_Markdown : Q;
  InvSell_Commission : Q;
  InvSell_Taxes : Q;
  InvSell_Fees : Q;
  InvSell_Load : Q;
  InvSell_Withholding : Q;
  InvSell_TaxExempt : bool;
  InvSell_Total : Q;
  InvSell_Gain : Q;
  InvSell_Currency : Currency;
  InvSell_OrigCurrency : Currency;
  InvSell_SubAcctSec : N;
  InvSell_SubAcctFund : N;
  InvSell_LoanID : str;
  InvSell_StateWithholding : Q;
  InvSell_Penalty : Q;
  InvSell_Inv401kSource : N
}.

(** invstmt.go:123-127 *)
Record BuyDebt := mkBuyDebt {
  BuyDebt_InvBuy : InvBuy;
  BuyDebt_AccrdInt : Q
}.

(** invstmt.go:139-144 *)
Record BuyMF := mkBuyMF {
  BuyMF_InvBuy : InvBuy;
  BuyMF_BuyType : N;
  BuyMF_RelFiTID : str
}.

(** invstmt.go:156-161 *)
Record BuyOpt := mkBuyOpt {
  BuyOpt_InvBuy : InvBuy;
  BuyOpt_OptBuyType : N;
  BuyOpt_ShPerCtrct : Z
}.

(** invstmt.go:174-177 *)
Record BuyOther := mkBuyOther {
  BuyOther_InvBuy : InvBuy
}.

(** invstmt.go:189-193 *)
Record BuyStock := mkBuyStock {
  BuyStock_InvBuy : InvBuy;
  BuyStock_BuyType : N
}.

(** invstmt.go:205-215 *)
Record ClosureOpt := mkClosureOpt {
  ClosureOpt_InvTran : InvTran;
  ClosureOpt_SecID : SecurityID;
  ClosureOpt_OptAction : N;
  ClosureOpt_Units : Q;
  ClosureOpt_ShPerCtrct : Z;
  ClosureOpt_SubAcctSec : N;
  ClosureOpt_RelFiTID : str;
  ClosureOpt_Gain : Q
}.

(** invstmt.go:228-241 *)
Record Income := mkIncome {
  Income_InvTran : InvTran;
  Income_SecID : SecurityID;
  Income_IncomeType : N;
  Income_Total : Q;
  Income_SubAcctSec : N;
  Income_SubAcctFund : N;
  Income_TaxExempt : bool;
  Income_Withholding : Q;
  Income_Currency : Currency;
  Income_OrigCurrency : Currency;
  Income_Inv401kSource : N
}.

(** invstmt.go:254-264 *)
Record InvExpense := mkInvExpense {
  InvExpense_InvTran : InvTran;
  InvExpense_SecID : SecurityID;
  InvExpense_Total : Q;
  InvExpense_SubAcctSec : N;
  InvExpense_SubAcctFund : N;
  InvExpense_Currency : Currency;
  InvExpense_OrigCurrency : Currency;
  InvExpense_Inv401kSource : N
}.

(** invstmt.go:277-283 *)
Record JrnlFund := mkJrnlFund {
  JrnlFund_InvTran : InvTran;
  JrnlFund_Total : Q;
  JrnlFund_SubAcctFrom : N;
  JrnlFund_SubAcctTo : N
}.

(** invstmt.go:296-303 *)
Record JrnlSec := mkJrnlSec {
  JrnlSec_InvTran : InvTran;
  JrnlSec_SecID : SecurityID;
  JrnlSec_SubAcctFrom : N;
  JrnlSec_SubAcctTo : N;
  JrnlSec_Units : Q
}.

(** invstmt.go:315-322 *)
Record MarginInterest := mkMarginInterest {
  MarginInterest_InvTran : InvTran;
  MarginInterest_Total : Q;
  MarginInterest_SubAcctFund : N;
  MarginInterest_Currency : Currency;
  MarginInterest_OrigCurrency : Currency
}.

(** invstmt.go:336-353 *)
Record Reinvest := mkReinvest {
  Reinvest_InvTran : InvTran;
  Reinvest_SecID : SecurityID;
  Reinvest_IncomeType : N;
  Reinvest_Total : Q;
  Reinvest_SubAcctSec : N;
  Reinvest_Units : Q;
  Reinvest_UnitPrice : Q;
  Reinvest_Commission : Q;
  Reinvest_Taxes : Q;
  Reinvest_Fees : Q;
  Reinvest_Load : Q;
  Reinvest_TaxExempt : bool;
  Reinvest_Currency : Currency;
  Reinvest_OrigCurrency : Currency;
  Reinvest_Inv401kSource : N
}.

(** invstmt.go:366-376 *)
Record RetOfCap := mkRetOfCap {
  RetOfCap_InvTran : InvTran;
  RetOfCap_SecID : SecurityID;
  RetOfCap_Total : Q;
  RetOfCap_SubAcctSec : N;
  RetOfCap_SubAcctFund : N;
  RetOfCap_Currency : Currency;
  RetOfCap_OrigCurrency : Currency;
  RetOfCap_Inv401kSource : N
}.

(** invstmt.go:389-394 *)
Record SellDebt := mkSellDebt {
  SellDebt_InvSell : InvSell;
  SellDebt_SellReason : N;
  SellDebt_AccrdInt : Q
}.

(** invstmt.go:406-412 *)
Record SellMF := mkSellMF {
  SellMF_InvSell : InvSell;
  SellMF_SellType : N;
  SellMF_AvgCostBasis : Q;
  SellMF_RelFiTID : str
}.

(** invstmt.go:426-434 *)
Record SellOpt := mkSellOpt {
  SellOpt_InvSell : InvSell;
  SellOpt_OptSellType : N;
  SellOpt_ShPerCtrct : Z;
  SellOpt_RelFiTID : str;
  SellOpt_RelType : N;
  SellOpt_Secured : N
}.

(** invstmt.go:447-450 *)
Record SellOther := mkSellOther {
  SellOther_InvSell : InvSell
}.

(** invstmt.go:462-466 *)
Record SellStock := mkSellStock {
  SellStock_InvSell : InvSell;
  SellStock_SellType : N
}.

(** invstmt.go:478-492 *)
Record Split := mkSplit {
  Split_InvTran : InvTran;
  Split_SecID : SecurityID;
  Split_SubAcctSec : N;
  Split_OldUnits : Q;
  Split_NewUnits : Q;
  Split_Numerator : Z;
  Split_Denominator : Z;
  Split_Currency : Currency;
  Split_OrigCurrency : Currency;
  Split_FracCash : Q;
  Split_SubAcctFund : N;
  Split_Inv401kSource : N
}.

(** invstmt.go:504-517 *)
Record Transfer := mkTransfer {
  Transfer_InvTran : InvTran;
  Transfer_SecID : SecurityID;
  Transfer_SubAcctSec : N;
  Transfer_Units : Q;
  Transfer_TferAction : N;
  Transfer_PosType : N;
  Transfer_InvAcctFrom : InvAcct;
  Transfer_AvgCostBasis : Q;
  Transfer_UnitPrice : Q;
  Transfer_DtPurchase : option gotime;
  Transfer_Inv401kSource : N
}.

(** invstmt.go:538-542 *)
Record InvBankTransaction := mkInvBankTransaction {
  InvBankTransaction_Transactions : list Transaction;
  InvBankTransaction_SubAcctFund : N
}.

(** The types that satisfy the interface InvTransaction, invstmt.go:558-713 *)
Inductive InvTransaction :=
| InvTransaction_BuyDebt (x : BuyDebt)
| InvTransaction_BuyMF (x : BuyMF)
| InvTransaction_BuyOpt (x : BuyOpt)
| InvTransaction_BuyOther (x : BuyOther)
| InvTransaction_BuyStock (x : BuyStock)
| InvTransaction_ClosureOpt (x : ClosureOpt)
| InvTransaction_Income (x : Income)
| InvTransaction_InvExpense (x : InvExpense)
| InvTransaction_JrnlFund (x : JrnlFund)
| InvTransaction_JrnlSec (x : JrnlSec)
| InvTransaction_MarginInterest (x : MarginInterest)
| InvTransaction_Reinvest (x : Reinvest)
| InvTransaction_RetOfCap (x : RetOfCap)
| InvTransaction_SellDebt (x : SellDebt)
| InvTransaction_SellMF (x : SellMF)
| InvTransaction_SellOpt (x : SellOpt)
| InvTransaction_SellOther (x : SellOther)
| InvTransaction_SellStock (x : SellStock)
| InvTransaction_Split (x : Split)
| InvTransaction_Transfer (x : Transfer).

(** invstmt.go:548-554 *)
Record InvTranList := mkInvTranList {
  InvTranList_DtStart : gotime;
  InvTranList_DtEnd : gotime;
  InvTranList_InvTransactions : list InvTransaction;
  InvTranList_BankTransactions : list InvBankTransaction
}.

(** invstmt.go:830-843 *)
Record InvPosition := mkInvPosition {
  InvPosition_SecID : SecurityID;
  InvPosition_HeldInAcct : N;
  InvPosition_PosType : N;
  InvPosition_Units : Q;
  InvPosition_UnitPrice : Q;
  InvPosition_MktVal : Q;
  InvPosition_AvgCostBasis : Q;
  InvPosition_DtPriceAsOf : gotime;
  InvPosition_Currency : option Currency;
  InvPosition_Memo : str;
  InvPosition_Inv401kSource : N
}.

(** invstmt.go:852-855 *)
Record DebtPosition := mkDebtPosition {
  DebtPosition_InvPos : InvPosition
}.

(** invstmt.go:868-875 *)
Record MFPosition := mkMFPosition {
  MFPosition_InvPos : InvPosition;
  MFPosition_UnitsStreet : Q;
  MFPosition_UnitsUser : Q;
  MFPosition_ReinvDiv : bool;
  MFPosition_ReinvCG : bool
}.

(** invstmt.go:888-892 *)
Record OptPosition := mkOptPosition {
  OptPosition_InvPos : InvPosition;
  OptPosition_Secured : N
}.

(** invstmt.go:906-909 *)
Record OtherPosition := mkOtherPosition {
  OtherPosition_InvPos : InvPosition
}.

(** invstmt.go:922-928 *)
Record StockPosition := mkStockPosition {
  StockPosition_InvPos : InvPosition;
  StockPosition_UnitsStreet : Q;
  StockPosition_UnitsUser : Q;
  StockPosition_ReinvDiv : bool
}.

(** invstmt.go:1036-1043 *)
Record InvBalance := mkInvBalance {
  InvBalance_AvailCash : Q;
  InvBalance_MarginBalance : Q;
  InvBalance_ShortBalance : Q;
  InvBalance_BuyPower : Q;
  InvBalance_BalList : list Balance
}.

(** invstmt.go:1047-1063 *)
Record OO := mkOO {
  OO_FiTID : str;
  OO_SrvrTID : str;
  OO_SecID : SecurityID;
  OO_DtPlaced : gotime;
  OO_Units : Q;
  OO_SubAcct : N;
  OO_Duration : N;
  OO_Restriction : N;
  OO_MinUnits : Q;
  OO_LimitPrice : Q;
  OO_StopPrice : Q;
  OO_Memo : str;
  OO_Currency : option Currency;
  OO_Inv401kSource : N
}.

(** invstmt.go:1071-1076 *)
Record OOBuyDebt := mkOOBuyDebt {
  OOBuyDebt_OO : OO;
  OOBuyDebt_Auction : bool;
  OOBuyDebt_DtAuction : option gotime
}.

(** invstmt.go:1084-1089 *)
Record OOBuyMF := mkOOBuyMF {
  OOBuyMF_OO : OO;
  OOBuyMF_BuyType : N;
  OOBuyMF_UnitType : N
}.

(** invstmt.go:1097-1101 *)
Record OOBuyOpt := mkOOBuyOpt {
  OOBuyOpt_OO : OO;
  OOBuyOpt_OptBuyType : N
}.

(** invstmt.go:1110-1114 *)
Record OOBuyOther := mkOOBuyOther {
  OOBuyOther_OO : OO;
  OOBuyOther_UnitType : N
}.

(** invstmt.go:1122-1126 *)
Record OOBuyStock := mkOOBuyStock {
  OOBuyStock_OO : OO;
  OOBuyStock_BuyType : N
}.

(** invstmt.go:1134-1137 *)
Record OOSellDebt := mkOOSellDebt {
  OOSellDebt_OO : OO
}.

(** invstmt.go:1145-1151 *)
Record OOSellMF := mkOOSellMF {
  OOSellMF_OO : OO;
  OOSellMF_SellType : N;
  OOSellMF_UnitType : N;
  OOSellMF_SellAll : bool
}.

(** invstmt.go:1159-1163 *)
Record OOSellOpt := mkOOSellOpt {
  OOSellOpt_OO : OO;
  OOSellOpt_OptSellType : N
}.

(** invstmt.go:1172-1176 *)
Record OOSellOther := mkOOSellOther {
  OOSellOther_OO : OO;
  OOSellOther_UnitType : N
}.

(** invstmt.go:1184-1188 *)
Record OOSellStock := mkOOSellStock {
  OOSellStock_OO : OO;
  OOSellStock_SellType : N
}.

(** invstmt.go:1197-1203 *)
Record OOSwitchMF := mkOOSwitchMF {
  OOSwitchMF_OO : OO;
  OOSwitchMF_SecID : SecurityID;
  OOSwitchMF_UnitType : N;
  OOSwitchMF_SwitchAll : bool
}.

(** invstmt.go:1364-1381 *)
Record ContribSecurity := mkContribSecurity {
  ContribSecurity_SecID : SecurityID;
  ContribSecurity_PreTaxContribPct : Q;
  ContribSecurity_PreTaxContribAmt : Q;
  ContribSecurity_AfterTaxContribPct : Q;
  ContribSecurity_AfterTaxContribAmt : Q;
  ContribSecurity_MatchContribPct : Q;
  ContribSecurity_MatchContribAmt : Q;
  ContribSecurity_ProfitSharingContribPct : Q;
  ContribSecurity_ProfitSharingContribAmt : Q;
  ContribSecurity_RolloverContribPct : Q;
  ContribSecurity_RolloverContribAmt : Q;
  ContribSecurity_OtherVestPct : Q;
  ContribSecurity_OtherVestAmt : Q;
  ContribSecurity_OtherNonVestPct : Q;
  ContribSecurity_OtherNonVestAmt : Q
}.

(** invstmt.go:1385-1389 *)
Record VestInfo := mkVestInfo {
  VestInfo_VestDate : option gotime;
  VestInfo_VestPct : Q
}.

(** invstmt.go:1392-1409 *)
Record LoanInfo := mkLoanInfo {
  LoanInfo_LoanID : str;
  LoanInfo_LoanDesc : str;
  LoanInfo_InitialLoanBal : Q;
  LoanInfo_LoanStartDate : option gotime;
  LoanInfo_CurrentLoanBal : Q;
  LoanInfo_DtAsOf : option gotime;
  LoanInfo_LoanRate : Q;
  LoanInfo_LoanPmtAmt : Q;
  LoanInfo_LoanPmtFreq : N;
  LoanInfo_LoanPmtsInitial : Z;
  LoanInfo_LoanPmtsRemaining : Z;
  LoanInfo_LoanMaturityDate : option gotime;
  LoanInfo_LoanTotalProjInterest : Q;
  LoanInfo_LoanInterestToDate : Q;
  LoanInfo_LoanExtPmtDate : option gotime
}.

(** invstmt.go:1414-1424 *)
Record Inv401KSummaryAggregate := mkInv401KSummaryAggregate {
  Inv401KSummaryAggregate_PreTax : Q;
  Inv401KSummaryAggregate_AfterTax : Q;
  Inv401KSummaryAggregate_Match : Q;
  Inv401KSummaryAggregate_ProfitSharing : Q;
  Inv401KSummaryAggregate_Rollover : Q;
  Inv401KSummaryAggregate_OtherVest : Q;
  Inv401KSummaryAggregate_OtherNonVest : Q;
  Inv401KSummaryAggregate_Total : Q
}.

(** invstmt.go:1428-1435 *)
Record Inv401KSummaryPeriod := mkInv401KSummaryPeriod {
  Inv401KSummaryPeriod_DtStart : gotime;
  Inv401KSummaryPeriod_DtEnd : gotime;
  Inv401KSummaryPeriod_Contributions : option Inv401KSummaryAggregate;
  Inv401KSummaryPeriod_Withdrawls : option Inv401KSummaryAggregate;
  Inv401KSummaryPeriod_Earnings : option Inv401KSummaryAggregate
}.

(** invstmt.go:1439-1463 *)
Record Inv401K := mkInv401K {
  Inv401K_EmployerName : str;
  Inv401K_PlanID : str;
  Inv401K_PlanJoinDate : option gotime;
  Inv401K_EmployerContactInfo : str;
  Inv401K_BrokerContactInfo : str;
  Inv401K_DeferPctPreTax : Q;
  Inv401K_DeferPctAfterTax : Q;
  Inv401K_MatchPct : Q;
  Inv401K_MaxMatchAmt : Q;
  Inv401K_MaxMatchPct : Q;
  Inv401K_StartOfYear : option gotime;
  Inv401K_BaseMatchAmt : Q;
  Inv401K_BaseMatchPct : Q;
  Inv401K_ContribInfo : list ContribSecurity;
  Inv401K_CurrentVestPct : Q;
  Inv401K_VestInfo : list VestInfo;
  Inv401K_LoanInfo : list LoanInfo;
  Inv401K_YearToDateSummary : Inv401KSummaryPeriod;
  Inv401K_InceptToDateSummary : option Inv401KSummaryPeriod;
  Inv401K_PeriodToDate : option Inv401KSummaryPeriod
}.

(** invstmt.go:1467-1479 *)
Record Inv401KBal := mkInv401KBal {
  Inv401KBal_CashBal : Q;
  Inv401KBal_PreTax : Q;
  Inv401KBal_AfterTax : Q;
  Inv401KBal_Match : Q;
  Inv401KBal_ProfitSharing : Q;
  Inv401KBal_Rollover : Q;
  Inv401KBal_OtherVest : Q;
  Inv401KBal_OtherNonVest : Q;
  Inv401KBal_Total : Q;
  Inv401KBal_BalList : list Balance
}.

(** The types that satisfy the interface Position, invstmt.go:945-992 *)
Inductive Position :=
| Position_DebtPosition (x : DebtPosition)
| Position_MFPosition (x : MFPosition)
| Position_OptPosition (x : OptPosition)
| Position_OtherPosition (x : OtherPosition)
| Position_StockPosition (x : StockPosition).

(** The types that satisfy the interface OpenOrder, invstmt.go:1214-1297 *)
Inductive OpenOrder :=
| OpenOrder_OOBuyDebt (x : OOBuyDebt)
| OpenOrder_OOBuyMF (x : OOBuyMF)
| OpenOrder_OOBuyOpt (x : OOBuyOpt)
| OpenOrder_OOBuyOther (x : OOBuyOther)
| OpenOrder_OOBuyStock (x : OOBuyStock)
| OpenOrder_OOSellDebt (x : OOSellDebt)
| OpenOrder_OOSellMF (x : OOSellMF)
| OpenOrder_OOSellOpt (x : OOSellOpt)
| OpenOrder_OOSellOther (x : OOSellOther)
| OpenOrder_OOSellStock (x : OOSellStock)
| OpenOrder_OOSwitchMF (x : OOSwitchMF).

(** invstmt.go:1485-1501 *)
Record InvStatementResponse := mkInvStatementResponse {
  InvStatementResponse_TrnUID : str;
  InvStatementResponse_Status : Status;
  InvStatementResponse_CltCookie : str;
  InvStatementResponse_DtAsOf : gotime;
  InvStatementResponse_CurDef : str;
  InvStatementResponse_InvAcctFrom : InvAcct;
  InvStatementResponse_InvTranList : option InvTranList;
  InvStatementResponse_InvPosList : list Position;
  InvStatementResponse_InvBal : option InvBalance;
  InvStatementResponse_InvOOList : list OpenOrder;
  InvStatementResponse_MktgInfo : str;
  InvStatementResponse_Inv401K : option Inv401K;
  InvStatementResponse_Inv401KBal : option Inv401KBal
}.

(** profile.go:12-20 *)
Record ProfileRequest := mkProfileRequest {
  ProfileRequest_TrnUID : str;
  ProfileRequest_CltCookie : str;
  ProfileRequest_TAN : str;
  ProfileRequest_ClientRouting : str;
  ProfileRequest_DtProfUp : gotime
}.

(** profile.go:48-68 *)
Record SignonInfo := mkSignonInfo {
  SignonInfo_SignonRealm : str;
  SignonInfo_Min : Z;
  SignonInfo_Max : Z;
  SignonInfo_CharType : N;
  SignonInfo_CaseSen : bool;
  SignonInfo_Special : bool;
  SignonInfo_Spaces : bool;
  SignonInfo_PinCh : bool;
  SignonInfo_ChgPinFirst : bool;
  SignonInfo_UserCred1Label : str;
  SignonInfo_UserCred2Label : str;
  SignonInfo_ClientUIDReq : bool;
  SignonInfo_AuthTokenFirst : bool;
  SignonInfo_AuthTokenLabel : str;
  SignonInfo_AuthTokenInfoURL : str;
  SignonInfo_MFAChallengeSupt : bool;
  SignonInfo_MFAChallengeFIRST : bool;
  SignonInfo_AccessTokenReq : bool
}.

(** profile.go:72-86 *)
Record MessageSet := mkMessageSet {
  MessageSet_Name : str;
  MessageSet_Ver : Z;
  MessageSet_URL : str;
  MessageSet_OfxSec : N;
  MessageSet_TranspSec : bool;
  MessageSet_SignonRealm : str;
  MessageSet_Language : list str;
  MessageSet_SyncMode : N;
  MessageSet_RefreshSupt : bool;
  MessageSet_RespFileER : bool;
  MessageSet_SpName : str
}.

(** profile.go:164-186 *)
Record ProfileResponse := mkProfileResponse {
  ProfileResponse_TrnUID : str;
  ProfileResponse_Status : Status;
  ProfileResponse_CltCookie : str;
  ProfileResponse_MessageSetList : list MessageSet;
  ProfileResponse_SignonInfoList : list SignonInfo;
  ProfileResponse_DtProfUp : gotime;
  ProfileResponse_FiName : str;
  ProfileResponse_Addr1 : str;
  ProfileResponse_Addr2 : str;
  ProfileResponse_Addr3 : str;
  ProfileResponse_City : str;
  ProfileResponse_State : str;
  ProfileResponse_PostalCode : str;
  ProfileResponse_Country : str;
  ProfileResponse_CsPhone : str;
  ProfileResponse_TsPhone : str;
  ProfileResponse_FaxPhone : str;
  ProfileResponse_URL : str;
  ProfileResponse_Email : str
}.
