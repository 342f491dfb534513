(** The conversions of Schema.v are inverse in the other direction too; written by
    tools/gen_schema.py. *)
From Coq Require Import QArith.
From Verif Require Import GoStr GoTime Types Enums EnumTables Records Codec Schema.
Close Scope Q_scope.

Lemma Status_inv v : Status_to (Status_of v) = v.
Proof.
  destruct v as [x0 [x1 [x2 []]]]. cbv beta iota delta [Status_of Status_to Status_Code Status_Severity Status_Message].
  all: reflexivity.
Qed.

Lemma BankAcct_inv v : BankAcct_to (BankAcct_of v) = v.
Proof.
  destruct v as [x0 [x1 [x2 [x3 [x4 []]]]]]. cbv beta iota delta [BankAcct_of BankAcct_to BankAcct_BankID BankAcct_BranchID BankAcct_AcctID BankAcct_AcctType BankAcct_AcctKey].
  all: reflexivity.
Qed.

Lemma CCAcct_inv v : CCAcct_to (CCAcct_of v) = v.
Proof.
  destruct v as [x0 [x1 []]]. cbv beta iota delta [CCAcct_of CCAcct_to CCAcct_AcctID CCAcct_AcctKey].
  all: reflexivity.
Qed.

Lemma InvAcct_inv v : InvAcct_to (InvAcct_of v) = v.
Proof.
  destruct v as [x0 [x1 []]]. cbv beta iota delta [InvAcct_of InvAcct_to InvAcct_BrokerID InvAcct_AcctID].
  all: reflexivity.
Qed.

Lemma Currency_inv v : Currency_to (Currency_of v) = v.
Proof.
  destruct v as [x0 [x1 []]]. cbv beta iota delta [Currency_of Currency_to Currency_CurRate Currency_CurSym].
  all: reflexivity.
Qed.

Lemma SecurityID_inv v : SecurityID_to (SecurityID_of v) = v.
Proof.
  destruct v as [x0 [x1 []]]. cbv beta iota delta [SecurityID_of SecurityID_to SecurityID_UniqueID SecurityID_UniqueIDType].
  all: reflexivity.
Qed.

Lemma SecurityRequest_inv v : SecurityRequest_to (SecurityRequest_of v) = v.
Proof.
  destruct v as [x0 [x1 [x2 []]]]. cbv beta iota delta [SecurityRequest_of SecurityRequest_to SecurityRequest_SecID SecurityRequest_Ticker SecurityRequest_FiID].
  all: rewrite ?(option_map_iso _ _ SecurityID_inv), ?SecurityID_inv.
  all: reflexivity.
Qed.

Lemma SecListRequest_inv v : SecListRequest_to (SecListRequest_of v) = v.
Proof.
  destruct v as [x0 [x1 [x2 [x3 []]]]]. cbv beta iota delta [SecListRequest_of SecListRequest_to SecListRequest_TrnUID SecListRequest_CltCookie SecListRequest_TAN SecListRequest_Securities].
  all: rewrite ?(map_iso _ _ SecurityRequest_inv), ?SecurityRequest_inv.
  all: reflexivity.
Qed.

Lemma SecListResponse_inv v : SecListResponse_to (SecListResponse_of v) = v.
Proof.
  destruct v as [x0 [x1 [x2 []]]]. cbv beta iota delta [SecListResponse_of SecListResponse_to SecListResponse_TrnUID SecListResponse_Status SecListResponse_CltCookie].
  all: rewrite ?Status_inv.
  all: reflexivity.
Qed.

Lemma SecInfo_inv v : SecInfo_to (SecInfo_of v) = v.
Proof.
  destruct v as [x0 [x1 [x2 [x3 [x4 [x5 [x6 [x7 [x8 []]]]]]]]]]. cbv beta iota delta [SecInfo_of SecInfo_to SecInfo_SecID SecInfo_SecName SecInfo_Ticker SecInfo_FiID SecInfo_Rating SecInfo_UnitPrice SecInfo_DtAsOf SecInfo_Currency SecInfo_Memo].
  all: rewrite ?(option_map_iso _ _ Currency_inv), ?Currency_inv, ?SecurityID_inv.
  all: reflexivity.
Qed.

Lemma DebtInfo_inv v : DebtInfo_to (DebtInfo_of v) = v.
Proof.
  destruct v as [x0 [x1 [x2 [x3 [x4 [x5 [x6 [x7 [x8 [x9 [x10 [x11 [x12 [x13 [x14 []]]]]]]]]]]]]]]]. cbv beta iota delta [DebtInfo_of DebtInfo_to DebtInfo_SecInfo DebtInfo_ParValue DebtInfo_DebtType DebtInfo_DebtClass DebtInfo_CouponRate DebtInfo_DtCoupon DebtInfo_CouponFreq DebtInfo_CallPrice DebtInfo_YieldToCall DebtInfo_DtCall DebtInfo_CallType DebtInfo_YieldToMat DebtInfo_DtMat DebtInfo_AssetClass DebtInfo_FiAssetClass].
  all: rewrite ?SecInfo_inv.
  all: reflexivity.
Qed.

Lemma AssetPortion_inv v : AssetPortion_to (AssetPortion_of v) = v.
Proof.
  destruct v as [x0 [x1 []]]. cbv beta iota delta [AssetPortion_of AssetPortion_to AssetPortion_AssetClass AssetPortion_Percent].
  all: reflexivity.
Qed.

Lemma FiAssetPortion_inv v : FiAssetPortion_to (FiAssetPortion_of v) = v.
Proof.
  destruct v as [x0 [x1 []]]. cbv beta iota delta [FiAssetPortion_of FiAssetPortion_to FiAssetPortion_FiAssetClass FiAssetPortion_Percent].
  all: reflexivity.
Qed.

Lemma MFInfo_inv v : MFInfo_to (MFInfo_of v) = v.
Proof.
  destruct v as [x0 [x1 [x2 [x3 [x4 [x5 []]]]]]]. cbv beta iota delta [MFInfo_of MFInfo_to MFInfo_SecInfo MFInfo_MfType MFInfo_Yield MFInfo_DtYieldAsOf MFInfo_AssetClasses MFInfo_FiAssetClasses].
  all: rewrite ?(map_iso _ _ AssetPortion_inv), ?(map_iso _ _ FiAssetPortion_inv), ?AssetPortion_inv, ?FiAssetPortion_inv, ?SecInfo_inv.
  all: reflexivity.
Qed.

Lemma OptInfo_inv v : OptInfo_to (OptInfo_of v) = v.
Proof.
  destruct v as [x0 [x1 [x2 [x3 [x4 [x5 [x6 [x7 []]]]]]]]]. cbv beta iota delta [OptInfo_of OptInfo_to OptInfo_SecInfo OptInfo_OptType OptInfo_StrikePrice OptInfo_DtExpire OptInfo_ShPerCtrct OptInfo_SecID OptInfo_AssetClass OptInfo_FiAssetClass].
  all: rewrite ?(option_map_iso _ _ SecurityID_inv), ?SecInfo_inv, ?SecurityID_inv.
  all: reflexivity.
Qed.

Lemma OtherInfo_inv v : OtherInfo_to (OtherInfo_of v) = v.
Proof.
  destruct v as [x0 [x1 [x2 [x3 []]]]]. cbv beta iota delta [OtherInfo_of OtherInfo_to OtherInfo_SecInfo OtherInfo_TypeDesc OtherInfo_AssetClass OtherInfo_FiAssetClass].
  all: rewrite ?SecInfo_inv.
  all: reflexivity.
Qed.

Lemma StockInfo_inv v : StockInfo_to (StockInfo_of v) = v.
Proof.
  destruct v as [x0 [x1 [x2 [x3 [x4 [x5 []]]]]]]. cbv beta iota delta [StockInfo_of StockInfo_to StockInfo_SecInfo StockInfo_StockType StockInfo_Yield StockInfo_DtYieldAsOf StockInfo_AssetClass StockInfo_FiAssetClass].
  all: rewrite ?SecInfo_inv.
  all: reflexivity.
Qed.

Lemma Security_inv v : Security_to (Security_of v) = v.
Proof.
  destruct v as [x|v]; [exact (f_equal (fun y : interp DebtInfo_ty => (inl (y)) : interp_alts Security_alts) (DebtInfo_inv x))|].
  destruct v as [x|v]; [exact (f_equal (fun y : interp MFInfo_ty => (inr (inl (y))) : interp_alts Security_alts) (MFInfo_inv x))|].
  destruct v as [x|v]; [exact (f_equal (fun y : interp OptInfo_ty => (inr (inr (inl (y)))) : interp_alts Security_alts) (OptInfo_inv x))|].
  destruct v as [x|v]; [exact (f_equal (fun y : interp OtherInfo_ty => (inr (inr (inr (inl (y))))) : interp_alts Security_alts) (OtherInfo_inv x))|].
  destruct v as [x|v]; [exact (f_equal (fun y : interp StockInfo_ty => (inr (inr (inr (inr (inl (y)))))) : interp_alts Security_alts) (StockInfo_inv x))|].
  destruct v.
Qed.

Lemma SecurityList_inv v : SecurityList_to (SecurityList_of v) = v.
Proof.
  destruct v as [x0 []]. cbv beta iota delta [SecurityList_of SecurityList_to SecurityList_Securities].
  all: rewrite ?(map_iso _ _ Security_inv), ?Security_inv.
  all: reflexivity.
Qed.

Lemma SignonRequest_inv v : SignonRequest_to (SignonRequest_of v) = v.
Proof.
  destruct v as [x0 [x1 [x2 [x3 [x4 [x5 [x6 [x7 [x8 [x9 [x10 []]]]]]]]]]]]. cbv beta iota delta [SignonRequest_of SignonRequest_to SignonRequest_DtClient SignonRequest_UserID SignonRequest_UserPass SignonRequest_UserKey SignonRequest_GenUserKey SignonRequest_Language SignonRequest_Org SignonRequest_Fid SignonRequest_AppID SignonRequest_AppVer SignonRequest_ClientUID].
  all: reflexivity.
Qed.

Lemma SignonResponse_inv v : SignonResponse_to (SignonResponse_of v) = v.
Proof.
  destruct v as [x0 [x1 [x2 [x3 [x4 [x5 [x6 [x7 [x8 [x9 [x10 []]]]]]]]]]]]. cbv beta iota delta [SignonResponse_of SignonResponse_to SignonResponse_Status SignonResponse_DtServer SignonResponse_UserKey SignonResponse_TsKeyExpire SignonResponse_Language SignonResponse_DtProfUp SignonResponse_DtAcctUp SignonResponse_Org SignonResponse_Fid SignonResponse_SessCookie SignonResponse_AccessKey].
  all: rewrite ?Status_inv.
  all: reflexivity.
Qed.

Lemma AcctInfoRequest_inv v : AcctInfoRequest_to (AcctInfoRequest_of v) = v.
Proof.
  destruct v as [x0 [x1 [x2 [x3 []]]]]. cbv beta iota delta [AcctInfoRequest_of AcctInfoRequest_to AcctInfoRequest_TrnUID AcctInfoRequest_CltCookie AcctInfoRequest_TAN AcctInfoRequest_DtAcctUp].
  all: reflexivity.
Qed.

Lemma HolderInfo_inv v : HolderInfo_to (HolderInfo_of v) = v.
Proof.
  destruct v as [x0 [x1 [x2 [x3 [x4 [x5 [x6 [x7 [x8 [x9 [x10 [x11 [x12 [x13 []]]]]]]]]]]]]]]. cbv beta iota delta [HolderInfo_of HolderInfo_to HolderInfo_FirstName HolderInfo_MiddleName HolderInfo_LastName HolderInfo_Addr1 HolderInfo_Addr2 HolderInfo_Addr3 HolderInfo_City HolderInfo_State HolderInfo_PostalCode HolderInfo_Country HolderInfo_DayPhone HolderInfo_EvePhone HolderInfo_Email HolderInfo_HolderType].
  all: reflexivity.
Qed.

Lemma BankAcctInfo_inv v : BankAcctInfo_to (BankAcctInfo_of v) = v.
Proof.
  destruct v as [x0 [x1 [x2 [x3 [x4 [x5 [x6 [x7 [x8 [x9 []]]]]]]]]]]. cbv beta iota delta [BankAcctInfo_of BankAcctInfo_to BankAcctInfo_BankAcctFrom BankAcctInfo_SupTxDl BankAcctInfo_XferSrc BankAcctInfo_XferDest BankAcctInfo_MaturityDate BankAcctInfo_MaturityAmt BankAcctInfo_MinBalReq BankAcctInfo_AcctClassification BankAcctInfo_OverdraftLimit BankAcctInfo_SvcStatus].
  all: rewrite ?BankAcct_inv.
  all: reflexivity.
Qed.

Lemma CCAcctInfo_inv v : CCAcctInfo_to (CCAcctInfo_of v) = v.
Proof.
  destruct v as [x0 [x1 [x2 [x3 [x4 [x5 []]]]]]]. cbv beta iota delta [CCAcctInfo_of CCAcctInfo_to CCAcctInfo_CCAcctFrom CCAcctInfo_SupTxDl CCAcctInfo_XferSrc CCAcctInfo_XferDest CCAcctInfo_AcctClassification CCAcctInfo_SvcStatus].
  all: rewrite ?CCAcct_inv.
  all: reflexivity.
Qed.

Lemma InvAcctInfo_inv v : InvAcctInfo_to (InvAcctInfo_of v) = v.
Proof.
  destruct v as [x0 [x1 [x2 [x3 [x4 [x5 []]]]]]]. cbv beta iota delta [InvAcctInfo_of InvAcctInfo_to InvAcctInfo_InvAcctFrom InvAcctInfo_UsProductType InvAcctInfo_Checking InvAcctInfo_SvcStatus InvAcctInfo_InvAcctType InvAcctInfo_OptionLevel].
  all: rewrite ?InvAcct_inv.
  all: reflexivity.
Qed.

Lemma AcctInfo_inv v : AcctInfo_to (AcctInfo_of v) = v.
Proof.
  destruct v as [x0 [x1 [x2 [x3 [x4 [x5 [x6 [x7 []]]]]]]]]. cbv beta iota delta [AcctInfo_of AcctInfo_to AcctInfo_Name AcctInfo_Desc AcctInfo_Phone AcctInfo_PrimaryHolder AcctInfo_SecondaryHolder AcctInfo_BankAcctInfo AcctInfo_CCAcctInfo AcctInfo_InvAcctInfo].
  all: rewrite ?(option_map_iso _ _ BankAcctInfo_inv), ?(option_map_iso _ _ CCAcctInfo_inv), ?(option_map_iso _ _ InvAcctInfo_inv), ?BankAcctInfo_inv, ?CCAcctInfo_inv, ?HolderInfo_inv, ?InvAcctInfo_inv.
  all: reflexivity.
Qed.

Lemma AcctInfoResponse_inv v : AcctInfoResponse_to (AcctInfoResponse_of v) = v.
Proof.
  destruct v as [x0 [x1 [x2 [x3 [x4 []]]]]]. cbv beta iota delta [AcctInfoResponse_of AcctInfoResponse_to AcctInfoResponse_TrnUID AcctInfoResponse_Status AcctInfoResponse_CltCookie AcctInfoResponse_DtAcctUp AcctInfoResponse_AcctInfo].
  all: rewrite ?(map_iso _ _ AcctInfo_inv), ?AcctInfo_inv, ?Status_inv.
  all: reflexivity.
Qed.

Lemma StatementRequest_inv v : StatementRequest_to (StatementRequest_of v) = v.
Proof.
  destruct v as [x0 [x1 [x2 [x3 [x4 [x5 [x6 [x7 [x8 []]]]]]]]]]. cbv beta iota delta [StatementRequest_of StatementRequest_to StatementRequest_TrnUID StatementRequest_CltCookie StatementRequest_TAN StatementRequest_BankAcctFrom StatementRequest_DtStart StatementRequest_DtEnd StatementRequest_Include StatementRequest_IncludePending StatementRequest_IncTranImg].
  all: rewrite ?BankAcct_inv.
  all: reflexivity.
Qed.

Lemma Payee_inv v : Payee_to (Payee_of v) = v.
Proof.
  destruct v as [x0 [x1 [x2 [x3 [x4 [x5 [x6 [x7 [x8 []]]]]]]]]]. cbv beta iota delta [Payee_of Payee_to Payee_Name Payee_Addr1 Payee_Addr2 Payee_Addr3 Payee_City Payee_State Payee_PostalCode Payee_Country Payee_Phone].
  all: reflexivity.
Qed.

Lemma ImageData_inv v : ImageData_to (ImageData_of v) = v.
Proof.
  destruct v as [x0 [x1 [x2 [x3 [x4 [x5 [x6 []]]]]]]]. cbv beta iota delta [ImageData_of ImageData_to ImageData_ImageType ImageData_ImageRef ImageData_ImageRefType ImageData_ImageDelay ImageData_DtImageAvail ImageData_ImageTTL ImageData_CheckSup].
  all: reflexivity.
Qed.

Lemma Transaction_inv v : Transaction_to (Transaction_of v) = v.
Proof.
  destruct v as [x0 [x1 [x2 [x3 [x4 [x5 [x6 [x7 [x8 [x9 [x10 [x11 [x12 [x13 [x14 [x15 [x16 [x17 [x18 [x19 [x20 [x21 [x22 []]]]]]]]]]]]]]]]]]]]]]]]. cbv beta iota delta [Transaction_of Transaction_to Transaction_TrnType Transaction_DtPosted Transaction_DtUser Transaction_DtAvail Transaction_TrnAmt Transaction_FiTID Transaction_CorrectFiTID Transaction_CorrectAction Transaction_SrvrTID Transaction_CheckNum Transaction_RefNum Transaction_SIC Transaction_PayeeID Transaction_Name Transaction_Payee Transaction_ExtdName Transaction_BankAcctTo Transaction_CCAcctTo Transaction_Memo Transaction_ImageData Transaction_Currency Transaction_OrigCurrency Transaction_Inv401kSource].
  all: rewrite ?(map_iso _ _ ImageData_inv), ?(option_map_iso _ _ BankAcct_inv), ?(option_map_iso _ _ CCAcct_inv), ?(option_map_iso _ _ Currency_inv), ?(option_map_iso _ _ Payee_inv), ?BankAcct_inv, ?CCAcct_inv, ?Currency_inv, ?ImageData_inv, ?Payee_inv.
  all: reflexivity.
Qed.

Lemma TransactionList_inv v : TransactionList_to (TransactionList_of v) = v.
Proof.
  destruct v as [x0 [x1 [x2 []]]]. cbv beta iota delta [TransactionList_of TransactionList_to TransactionList_DtStart TransactionList_DtEnd TransactionList_Transactions].
  all: rewrite ?(map_iso _ _ Transaction_inv), ?Transaction_inv.
  all: reflexivity.
Qed.

Lemma PendingTransaction_inv v : PendingTransaction_to (PendingTransaction_of v) = v.
Proof.
  destruct v as [x0 [x1 [x2 [x3 [x4 [x5 [x6 [x7 [x8 [x9 [x10 []]]]]]]]]]]]. cbv beta iota delta [PendingTransaction_of PendingTransaction_to PendingTransaction_TrnType PendingTransaction_DtTran PendingTransaction_DtExpire PendingTransaction_TrnAmt PendingTransaction_RefNum PendingTransaction_Name PendingTransaction_ExtdName PendingTransaction_Memo PendingTransaction_ImageData PendingTransaction_Currency PendingTransaction_OrigCurrency].
  all: rewrite ?(map_iso _ _ ImageData_inv), ?Currency_inv, ?ImageData_inv.
  all: reflexivity.
Qed.

Lemma PendingTransactionList_inv v : PendingTransactionList_to (PendingTransactionList_of v) = v.
Proof.
  destruct v as [x0 [x1 []]]. cbv beta iota delta [PendingTransactionList_of PendingTransactionList_to PendingTransactionList_DtAsOf PendingTransactionList_Transactions].
  all: rewrite ?(map_iso _ _ PendingTransaction_inv), ?PendingTransaction_inv.
  all: reflexivity.
Qed.

Lemma Balance_inv v : Balance_to (Balance_of v) = v.
Proof.
  destruct v as [x0 [x1 [x2 [x3 [x4 [x5 []]]]]]]. cbv beta iota delta [Balance_of Balance_to Balance_Name Balance_Desc Balance_BalType Balance_Value Balance_DtAsOf Balance_Currency].
  all: rewrite ?(option_map_iso _ _ Currency_inv), ?Currency_inv.
  all: reflexivity.
Qed.

Lemma StatementResponse_inv v : StatementResponse_to (StatementResponse_of v) = v.
Proof.
  destruct v as [x0 [x1 [x2 [x3 [x4 [x5 [x6 [x7 [x8 [x9 [x10 [x11 [x12 [x13 [x14 []]]]]]]]]]]]]]]]. cbv beta iota delta [StatementResponse_of StatementResponse_to StatementResponse_TrnUID StatementResponse_Status StatementResponse_CltCookie StatementResponse_CurDef StatementResponse_BankAcctFrom StatementResponse_BankTranList StatementResponse_BankTranListP StatementResponse_BalAmt StatementResponse_DtAsOf StatementResponse_AvailBalAmt StatementResponse_AvailDtAsOf StatementResponse_CashAdvBalAmt StatementResponse_IntRate StatementResponse_BalList StatementResponse_MktgInfo].
  all: rewrite ?(map_iso _ _ Balance_inv), ?(option_map_iso _ _ PendingTransactionList_inv), ?(option_map_iso _ _ TransactionList_inv), ?Balance_inv, ?BankAcct_inv, ?PendingTransactionList_inv, ?Status_inv, ?TransactionList_inv.
  all: reflexivity.
Qed.

Lemma CCStatementRequest_inv v : CCStatementRequest_to (CCStatementRequest_of v) = v.
Proof.
  destruct v as [x0 [x1 [x2 [x3 [x4 [x5 [x6 [x7 [x8 []]]]]]]]]]. cbv beta iota delta [CCStatementRequest_of CCStatementRequest_to CCStatementRequest_TrnUID CCStatementRequest_CltCookie CCStatementRequest_TAN CCStatementRequest_CCAcctFrom CCStatementRequest_DtStart CCStatementRequest_DtEnd CCStatementRequest_Include CCStatementRequest_IncludePending CCStatementRequest_IncTranImg].
  all: rewrite ?CCAcct_inv.
  all: reflexivity.
Qed.

Lemma CCStatementResponse_inv v : CCStatementResponse_to (CCStatementResponse_of v) = v.
Proof.
  destruct v as [x0 [x1 [x2 [x3 [x4 [x5 [x6 [x7 [x8 [x9 [x10 [x11 [x12 [x13 [x14 [x15 [x16 [x17 [x18 []]]]]]]]]]]]]]]]]]]]. cbv beta iota delta [CCStatementResponse_of CCStatementResponse_to CCStatementResponse_TrnUID CCStatementResponse_Status CCStatementResponse_CltCookie CCStatementResponse_CurDef CCStatementResponse_CCAcctFrom CCStatementResponse_BankTranList CCStatementResponse_BalAmt CCStatementResponse_DtAsOf CCStatementResponse_AvailBalAmt CCStatementResponse_AvailDtAsOf CCStatementResponse_CashAdvBalAmt CCStatementResponse_IntRatePurch CCStatementResponse_IntRateCash CCStatementResponse_IntRateXfer CCStatementResponse_RewardName CCStatementResponse_RewardBal CCStatementResponse_RewardEarned CCStatementResponse_BalList CCStatementResponse_MktgInfo].
  all: rewrite ?(map_iso _ _ Balance_inv), ?(option_map_iso _ _ TransactionList_inv), ?Balance_inv, ?CCAcct_inv, ?Status_inv, ?TransactionList_inv.
  all: reflexivity.
Qed.

Lemma InvStatementRequest_inv v : InvStatementRequest_to (InvStatementRequest_of v) = v.
Proof.
  destruct v as [x0 [x1 [x2 [x3 [x4 [x5 [x6 [x7 [x8 [x9 [x10 [x11 [x12 [x13 []]]]]]]]]]]]]]]. cbv beta iota delta [InvStatementRequest_of InvStatementRequest_to InvStatementRequest_TrnUID InvStatementRequest_CltCookie InvStatementRequest_TAN InvStatementRequest_InvAcctFrom InvStatementRequest_DtStart InvStatementRequest_DtEnd InvStatementRequest_Include InvStatementRequest_IncludeOO InvStatementRequest_PosDtAsOf InvStatementRequest_IncludePos InvStatementRequest_IncludeBalance InvStatementRequest_Include401K InvStatementRequest_Include401KBal InvStatementRequest_IncludeTranImage].
  all: rewrite ?InvAcct_inv.
  all: reflexivity.
Qed.

Lemma InvTran_inv v : InvTran_to (InvTran_of v) = v.
Proof.
  destruct v as [x0 [x1 [x2 [x3 [x4 [x5 []]]]]]]. cbv beta iota delta [InvTran_of InvTran_to InvTran_FiTID InvTran_SrvrTID InvTran_DtTrade InvTran_DtSettle InvTran_ReversalFiTID InvTran_Memo].
  all: reflexivity.
Qed.

Lemma InvBuy_inv v : InvBuy_to (InvBuy_of v) = v.
Proof.
  destruct v as [x0 [x1 [x2 [x3 [x4 [x5 [x6 [x7 [x8 [x9 [x10 [x11 [x12 [x13 [x14 [x15 [x16 [x17 [x18 [x19 []]]]]]]]]]]]]]]]]]]]]. cbv beta iota delta [InvBuy_of InvBuy_to InvBuy_InvTran InvBuy_SecID InvBuy_Units InvBuy_UnitPrice InvBuy_Markup InvBuy_Commission InvBuy_Taxes InvBuy_Fees InvBuy_Load InvBuy_Total InvBuy_Currency InvBuy_OrigCurrency InvBuy_SubAcctSec InvBuy_SubAcctFund InvBuy_LoanID InvBuy_LoanPrincipal InvBuy_LoanInterest InvBuy_Inv401kSource InvBuy_DtPayroll InvBuy_PriorYearContrib].
  all: rewrite ?Currency_inv, ?InvTran_inv, ?SecurityID_inv.
  all: reflexivity.
Qed.

Lemma InvSell_inv v : InvSell_to (InvSell_of v) = v.
Proof.
  destruct v as [x0 [x1 [x2 [x3 [x4 [x5 [x6 [x7 [x8 [x9 [x10 [x11 [x12 [x13 [x14 [x15 [x16 [x17 [x18 [x19 [x20 []]]]]]]]]]]]]]]]]]]]]]. cbv beta iota delta [InvSell_of InvSell_to InvSell_InvTran InvSell_SecID InvSell_Units InvSell_UnitPrice InvSell_Markdown InvSell_Commission InvSell_Taxes InvSell_Fees InvSell_Load InvSell_Withholding InvSell_TaxExempt InvSell_Total InvSell_Gain InvSell_Currency InvSell_OrigCurrency InvSell_SubAcctSec InvSell_SubAcctFund InvSell_LoanID InvSell_StateWithholding InvSell_Penalty InvSell_Inv401kSource].
  all: rewrite ?Currency_inv, ?InvTran_inv, ?SecurityID_inv.
  all: reflexivity.
Qed.

Lemma BuyDebt_inv v : BuyDebt_to (BuyDebt_of v) = v.
Proof.
  destruct v as [x0 [x1 []]]. cbv beta iota delta [BuyDebt_of BuyDebt_to BuyDebt_InvBuy BuyDebt_AccrdInt].
  all: rewrite ?InvBuy_inv.
  all: reflexivity.
Qed.

Lemma BuyMF_inv v : BuyMF_to (BuyMF_of v) = v.
Proof.
  destruct v as [x0 [x1 [x2 []]]]. cbv beta iota delta [BuyMF_of BuyMF_to BuyMF_InvBuy BuyMF_BuyType BuyMF_RelFiTID].
  all: rewrite ?InvBuy_inv.
  all: reflexivity.
Qed.

Lemma BuyOpt_inv v : BuyOpt_to (BuyOpt_of v) = v.
Proof.
  destruct v as [x0 [x1 [x2 []]]]. cbv beta iota delta [BuyOpt_of BuyOpt_to BuyOpt_InvBuy BuyOpt_OptBuyType BuyOpt_ShPerCtrct].
  all: rewrite ?InvBuy_inv.
  all: reflexivity.
Qed.

Lemma BuyOther_inv v : BuyOther_to (BuyOther_of v) = v.
Proof.
  destruct v as [x0 []]. cbv beta iota delta [BuyOther_of BuyOther_to BuyOther_InvBuy].
  all: rewrite ?InvBuy_inv.
  all: reflexivity.
Qed.

Lemma BuyStock_inv v : BuyStock_to (BuyStock_of v) = v.
Proof.
  destruct v as [x0 [x1 []]]. cbv beta iota delta [BuyStock_of BuyStock_to BuyStock_InvBuy BuyStock_BuyType].
  all: rewrite ?InvBuy_inv.
  all: reflexivity.
Qed.

Lemma ClosureOpt_inv v : ClosureOpt_to (ClosureOpt_of v) = v.
Proof.
  destruct v as [x0 [x1 [x2 [x3 [x4 [x5 [x6 [x7 []]]]]]]]]. cbv beta iota delta [ClosureOpt_of ClosureOpt_to ClosureOpt_InvTran ClosureOpt_SecID ClosureOpt_OptAction ClosureOpt_Units ClosureOpt_ShPerCtrct ClosureOpt_SubAcctSec ClosureOpt_RelFiTID ClosureOpt_Gain].
  all: rewrite ?InvTran_inv, ?SecurityID_inv.
  all: reflexivity.
Qed.

Lemma Income_inv v : Income_to (Income_of v) = v.
Proof.
  destruct v as [x0 [x1 [x2 [x3 [x4 [x5 [x6 [x7 [x8 [x9 [x10 []]]]]]]]]]]]. cbv beta iota delta [Income_of Income_to Income_InvTran Income_SecID Income_IncomeType Income_Total Income_SubAcctSec Income_SubAcctFund Income_TaxExempt Income_Withholding Income_Currency Income_OrigCurrency Income_Inv401kSource].
  all: rewrite ?Currency_inv, ?InvTran_inv, ?SecurityID_inv.
  all: reflexivity.
Qed.

Lemma InvExpense_inv v : InvExpense_to (InvExpense_of v) = v.
Proof.
  destruct v as [x0 [x1 [x2 [x3 [x4 [x5 [x6 [x7 []]]]]]]]]. cbv beta iota delta [InvExpense_of InvExpense_to InvExpense_InvTran InvExpense_SecID InvExpense_Total InvExpense_SubAcctSec InvExpense_SubAcctFund InvExpense_Currency InvExpense_OrigCurrency InvExpense_Inv401kSource].
  all: rewrite ?Currency_inv, ?InvTran_inv, ?SecurityID_inv.
  all: reflexivity.
Qed.

Lemma JrnlFund_inv v : JrnlFund_to (JrnlFund_of v) = v.
Proof.
  destruct v as [x0 [x1 [x2 [x3 []]]]]. cbv beta iota delta [JrnlFund_of JrnlFund_to JrnlFund_InvTran JrnlFund_Total JrnlFund_SubAcctFrom JrnlFund_SubAcctTo].
  all: rewrite ?InvTran_inv.
  all: reflexivity.
Qed.

Lemma JrnlSec_inv v : JrnlSec_to (JrnlSec_of v) = v.
Proof.
  destruct v as [x0 [x1 [x2 [x3 [x4 []]]]]]. cbv beta iota delta [JrnlSec_of JrnlSec_to JrnlSec_InvTran JrnlSec_SecID JrnlSec_SubAcctFrom JrnlSec_SubAcctTo JrnlSec_Units].
  all: rewrite ?InvTran_inv, ?SecurityID_inv.
  all: reflexivity.
Qed.

Lemma MarginInterest_inv v : MarginInterest_to (MarginInterest_of v) = v.
Proof.
  destruct v as [x0 [x1 [x2 [x3 [x4 []]]]]]. cbv beta iota delta [MarginInterest_of MarginInterest_to MarginInterest_InvTran MarginInterest_Total MarginInterest_SubAcctFund MarginInterest_Currency MarginInterest_OrigCurrency].
  all: rewrite ?Currency_inv, ?InvTran_inv.
  all: reflexivity.
Qed.

Lemma Reinvest_inv v : Reinvest_to (Reinvest_of v) = v.
Proof.
  destruct v as [x0 [x1 [x2 [x3 [x4 [x5 [x6 [x7 [x8 [x9 [x10 [x11 [x12 [x13 [x14 []]]]]]]]]]]]]]]]. cbv beta iota delta [Reinvest_of Reinvest_to Reinvest_InvTran Reinvest_SecID Reinvest_IncomeType Reinvest_Total Reinvest_SubAcctSec Reinvest_Units Reinvest_UnitPrice Reinvest_Commission Reinvest_Taxes Reinvest_Fees Reinvest_Load Reinvest_TaxExempt Reinvest_Currency Reinvest_OrigCurrency Reinvest_Inv401kSource].
  all: rewrite ?Currency_inv, ?InvTran_inv, ?SecurityID_inv.
  all: reflexivity.
Qed.

Lemma RetOfCap_inv v : RetOfCap_to (RetOfCap_of v) = v.
Proof.
  destruct v as [x0 [x1 [x2 [x3 [x4 [x5 [x6 [x7 []]]]]]]]]. cbv beta iota delta [RetOfCap_of RetOfCap_to RetOfCap_InvTran RetOfCap_SecID RetOfCap_Total RetOfCap_SubAcctSec RetOfCap_SubAcctFund RetOfCap_Currency RetOfCap_OrigCurrency RetOfCap_Inv401kSource].
  all: rewrite ?Currency_inv, ?InvTran_inv, ?SecurityID_inv.
  all: reflexivity.
Qed.

Lemma SellDebt_inv v : SellDebt_to (SellDebt_of v) = v.
Proof.
  destruct v as [x0 [x1 [x2 []]]]. cbv beta iota delta [SellDebt_of SellDebt_to SellDebt_InvSell SellDebt_SellReason SellDebt_AccrdInt].
  all: rewrite ?InvSell_inv.
  all: reflexivity.
Qed.

Lemma SellMF_inv v : SellMF_to (SellMF_of v) = v.
Proof.
  destruct v as [x0 [x1 [x2 [x3 []]]]]. cbv beta iota delta [SellMF_of SellMF_to SellMF_InvSell SellMF_SellType SellMF_AvgCostBasis SellMF_RelFiTID].
  all: rewrite ?InvSell_inv.
  all: reflexivity.
Qed.

Lemma SellOpt_inv v : SellOpt_to (SellOpt_of v) = v.
Proof.
  destruct v as [x0 [x1 [x2 [x3 [x4 [x5 []]]]]]]. cbv beta iota delta [SellOpt_of SellOpt_to SellOpt_InvSell SellOpt_OptSellType SellOpt_ShPerCtrct SellOpt_RelFiTID SellOpt_RelType SellOpt_Secured].
  all: rewrite ?InvSell_inv.
  all: reflexivity.
Qed.

Lemma SellOther_inv v : SellOther_to (SellOther_of v) = v.
Proof.
  destruct v as [x0 []]. cbv beta iota delta [SellOther_of SellOther_to SellOther_InvSell].
  all: rewrite ?InvSell_inv.
  all: reflexivity.
Qed.

Lemma SellStock_inv v : SellStock_to (SellStock_of v) = v.
Proof.
  destruct v as [x0 [x1 []]]. cbv beta iota delta [SellStock_of SellStock_to SellStock_InvSell SellStock_SellType].
  all: rewrite ?InvSell_inv.
  all: reflexivity.
Qed.

Lemma Split_inv v : Split_to (Split_of v) = v.
Proof.
  destruct v as [x0 [x1 [x2 [x3 [x4 [x5 [x6 [x7 [x8 [x9 [x10 [x11 []]]]]]]]]]]]]. cbv beta iota delta [Split_of Split_to Split_InvTran Split_SecID Split_SubAcctSec Split_OldUnits Split_NewUnits Split_Numerator Split_Denominator Split_Currency Split_OrigCurrency Split_FracCash Split_SubAcctFund Split_Inv401kSource].
  all: rewrite ?Currency_inv, ?InvTran_inv, ?SecurityID_inv.
  all: reflexivity.
Qed.

Lemma Transfer_inv v : Transfer_to (Transfer_of v) = v.
Proof.
  destruct v as [x0 [x1 [x2 [x3 [x4 [x5 [x6 [x7 [x8 [x9 [x10 []]]]]]]]]]]]. cbv beta iota delta [Transfer_of Transfer_to Transfer_InvTran Transfer_SecID Transfer_SubAcctSec Transfer_Units Transfer_TferAction Transfer_PosType Transfer_InvAcctFrom Transfer_AvgCostBasis Transfer_UnitPrice Transfer_DtPurchase Transfer_Inv401kSource].
  all: rewrite ?InvAcct_inv, ?InvTran_inv, ?SecurityID_inv.
  all: reflexivity.
Qed.

Lemma InvBankTransaction_inv v : InvBankTransaction_to (InvBankTransaction_of v) = v.
Proof.
  destruct v as [x0 [x1 []]]. cbv beta iota delta [InvBankTransaction_of InvBankTransaction_to InvBankTransaction_Transactions InvBankTransaction_SubAcctFund].
  all: rewrite ?(map_iso _ _ Transaction_inv), ?Transaction_inv.
  all: reflexivity.
Qed.

Lemma InvTransaction_inv v : InvTransaction_to (InvTransaction_of v) = v.
Proof.
  destruct v as [x|v]; [exact (f_equal (fun y : interp BuyDebt_ty => (inl (y)) : interp_alts InvTransaction_alts) (BuyDebt_inv x))|].
  destruct v as [x|v]; [exact (f_equal (fun y : interp BuyMF_ty => (inr (inl (y))) : interp_alts InvTransaction_alts) (BuyMF_inv x))|].
  destruct v as [x|v]; [exact (f_equal (fun y : interp BuyOpt_ty => (inr (inr (inl (y)))) : interp_alts InvTransaction_alts) (BuyOpt_inv x))|].
  destruct v as [x|v]; [exact (f_equal (fun y : interp BuyOther_ty => (inr (inr (inr (inl (y))))) : interp_alts InvTransaction_alts) (BuyOther_inv x))|].
  destruct v as [x|v]; [exact (f_equal (fun y : interp BuyStock_ty => (inr (inr (inr (inr (inl (y)))))) : interp_alts InvTransaction_alts) (BuyStock_inv x))|].
  destruct v as [x|v]; [exact (f_equal (fun y : interp ClosureOpt_ty => (inr (inr (inr (inr (inr (inl (y))))))) : interp_alts InvTransaction_alts) (ClosureOpt_inv x))|].
  destruct v as [x|v]; [exact (f_equal (fun y : interp Income_ty => (inr (inr (inr (inr (inr (inr (inl (y)))))))) : interp_alts InvTransaction_alts) (Income_inv x))|].
  destruct v as [x|v]; [exact (f_equal (fun y : interp InvExpense_ty => (inr (inr (inr (inr (inr (inr (inr (inl (y))))))))) : interp_alts InvTransaction_alts) (InvExpense_inv x))|].
  destruct v as [x|v]; [exact (f_equal (fun y : interp JrnlFund_ty => (inr (inr (inr (inr (inr (inr (inr (inr (inl (y)))))))))) : interp_alts InvTransaction_alts) (JrnlFund_inv x))|].
  destruct v as [x|v]; [exact (f_equal (fun y : interp JrnlSec_ty => (inr (inr (inr (inr (inr (inr (inr (inr (inr (inl (y))))))))))) : interp_alts InvTransaction_alts) (JrnlSec_inv x))|].
  destruct v as [x|v]; [exact (f_equal (fun y : interp MarginInterest_ty => (inr (inr (inr (inr (inr (inr (inr (inr (inr (inr (inl (y)))))))))))) : interp_alts InvTransaction_alts) (MarginInterest_inv x))|].
  destruct v as [x|v]; [exact (f_equal (fun y : interp Reinvest_ty => (inr (inr (inr (inr (inr (inr (inr (inr (inr (inr (inr (inl (y))))))))))))) : interp_alts InvTransaction_alts) (Reinvest_inv x))|].
  destruct v as [x|v]; [exact (f_equal (fun y : interp RetOfCap_ty => (inr (inr (inr (inr (inr (inr (inr (inr (inr (inr (inr (inr (inl (y)))))))))))))) : interp_alts InvTransaction_alts) (RetOfCap_inv x))|].
  destruct v as [x|v]; [exact (f_equal (fun y : interp SellDebt_ty => (inr (inr (inr (inr (inr (inr (inr (inr (inr (inr (inr (inr (inr (inl (y))))))))))))))) : interp_alts InvTransaction_alts) (SellDebt_inv x))|].
  destruct v as [x|v]; [exact (f_equal (fun y : interp SellMF_ty => (inr (inr (inr (inr (inr (inr (inr (inr (inr (inr (inr (inr (inr (inr (inl (y)))))))))))))))) : interp_alts InvTransaction_alts) (SellMF_inv x))|].
  destruct v as [x|v]; [exact (f_equal (fun y : interp SellOpt_ty => (inr (inr (inr (inr (inr (inr (inr (inr (inr (inr (inr (inr (inr (inr (inr (inl (y))))))))))))))))) : interp_alts InvTransaction_alts) (SellOpt_inv x))|].
  destruct v as [x|v]; [exact (f_equal (fun y : interp SellOther_ty => (inr (inr (inr (inr (inr (inr (inr (inr (inr (inr (inr (inr (inr (inr (inr (inr (inl (y)))))))))))))))))) : interp_alts InvTransaction_alts) (SellOther_inv x))|].
  destruct v as [x|v]; [exact (f_equal (fun y : interp SellStock_ty => (inr (inr (inr (inr (inr (inr (inr (inr (inr (inr (inr (inr (inr (inr (inr (inr (inr (inl (y))))))))))))))))))) : interp_alts InvTransaction_alts) (SellStock_inv x))|].
  destruct v as [x|v]; [exact (f_equal (fun y : interp Split_ty => (inr (inr (inr (inr (inr (inr (inr (inr (inr (inr (inr (inr (inr (inr (inr (inr (inr (inr (inl (y)))))))))))))))))))) : interp_alts InvTransaction_alts) (Split_inv x))|].
  destruct v as [x|v]; [exact (f_equal (fun y : interp Transfer_ty => (inr (inr (inr (inr (inr (inr (inr (inr (inr (inr (inr (inr (inr (inr (inr (inr (inr (inr (inr (inl (y))))))))))))))))))))) : interp_alts InvTransaction_alts) (Transfer_inv x))|].
  destruct v.
Qed.

Lemma InvTranList_inv v : InvTranList_to (InvTranList_of v) = v.
Proof.
  destruct v as [x0 [x1 [x2 [x3 []]]]]. cbv beta iota delta [InvTranList_of InvTranList_to InvTranList_DtStart InvTranList_DtEnd InvTranList_InvTransactions InvTranList_BankTransactions].
  all: rewrite ?(map_iso _ _ InvBankTransaction_inv), ?(map_iso _ _ InvTransaction_inv), ?InvBankTransaction_inv, ?InvTransaction_inv.
  all: reflexivity.
Qed.

Lemma InvPosition_inv v : InvPosition_to (InvPosition_of v) = v.
Proof.
  destruct v as [x0 [x1 [x2 [x3 [x4 [x5 [x6 [x7 [x8 [x9 [x10 []]]]]]]]]]]]. cbv beta iota delta [InvPosition_of InvPosition_to InvPosition_SecID InvPosition_HeldInAcct InvPosition_PosType InvPosition_Units InvPosition_UnitPrice InvPosition_MktVal InvPosition_AvgCostBasis InvPosition_DtPriceAsOf InvPosition_Currency InvPosition_Memo InvPosition_Inv401kSource].
  all: rewrite ?(option_map_iso _ _ Currency_inv), ?Currency_inv, ?SecurityID_inv.
  all: reflexivity.
Qed.

Lemma DebtPosition_inv v : DebtPosition_to (DebtPosition_of v) = v.
Proof.
  destruct v as [x0 []]. cbv beta iota delta [DebtPosition_of DebtPosition_to DebtPosition_InvPos].
  all: rewrite ?InvPosition_inv.
  all: reflexivity.
Qed.

Lemma MFPosition_inv v : MFPosition_to (MFPosition_of v) = v.
Proof.
  destruct v as [x0 [x1 [x2 [x3 [x4 []]]]]]. cbv beta iota delta [MFPosition_of MFPosition_to MFPosition_InvPos MFPosition_UnitsStreet MFPosition_UnitsUser MFPosition_ReinvDiv MFPosition_ReinvCG].
  all: rewrite ?InvPosition_inv.
  all: reflexivity.
Qed.

Lemma OptPosition_inv v : OptPosition_to (OptPosition_of v) = v.
Proof.
  destruct v as [x0 [x1 []]]. cbv beta iota delta [OptPosition_of OptPosition_to OptPosition_InvPos OptPosition_Secured].
  all: rewrite ?InvPosition_inv.
  all: reflexivity.
Qed.

Lemma OtherPosition_inv v : OtherPosition_to (OtherPosition_of v) = v.
Proof.
  destruct v as [x0 []]. cbv beta iota delta [OtherPosition_of OtherPosition_to OtherPosition_InvPos].
  all: rewrite ?InvPosition_inv.
  all: reflexivity.
Qed.

Lemma StockPosition_inv v : StockPosition_to (StockPosition_of v) = v.
Proof.
  destruct v as [x0 [x1 [x2 [x3 []]]]]. cbv beta iota delta [StockPosition_of StockPosition_to StockPosition_InvPos StockPosition_UnitsStreet StockPosition_UnitsUser StockPosition_ReinvDiv].
  all: rewrite ?InvPosition_inv.
  all: reflexivity.
Qed.

Lemma InvBalance_inv v : InvBalance_to (InvBalance_of v) = v.
Proof.
  destruct v as [x0 [x1 [x2 [x3 [x4 []]]]]]. cbv beta iota delta [InvBalance_of InvBalance_to InvBalance_AvailCash InvBalance_MarginBalance InvBalance_ShortBalance InvBalance_BuyPower InvBalance_BalList].
  all: rewrite ?(map_iso _ _ Balance_inv), ?Balance_inv.
  all: reflexivity.
Qed.

Lemma OO_inv v : OO_to (OO_of v) = v.
Proof.
  destruct v as [x0 [x1 [x2 [x3 [x4 [x5 [x6 [x7 [x8 [x9 [x10 [x11 [x12 [x13 []]]]]]]]]]]]]]]. cbv beta iota delta [OO_of OO_to OO_FiTID OO_SrvrTID OO_SecID OO_DtPlaced OO_Units OO_SubAcct OO_Duration OO_Restriction OO_MinUnits OO_LimitPrice OO_StopPrice OO_Memo OO_Currency OO_Inv401kSource].
  all: rewrite ?(option_map_iso _ _ Currency_inv), ?Currency_inv, ?SecurityID_inv.
  all: reflexivity.
Qed.

Lemma OOBuyDebt_inv v : OOBuyDebt_to (OOBuyDebt_of v) = v.
Proof.
  destruct v as [x0 [x1 [x2 []]]]. cbv beta iota delta [OOBuyDebt_of OOBuyDebt_to OOBuyDebt_OO OOBuyDebt_Auction OOBuyDebt_DtAuction].
  all: rewrite ?OO_inv.
  all: reflexivity.
Qed.

Lemma OOBuyMF_inv v : OOBuyMF_to (OOBuyMF_of v) = v.
Proof.
  destruct v as [x0 [x1 [x2 []]]]. cbv beta iota delta [OOBuyMF_of OOBuyMF_to OOBuyMF_OO OOBuyMF_BuyType OOBuyMF_UnitType].
  all: rewrite ?OO_inv.
  all: reflexivity.
Qed.

Lemma OOBuyOpt_inv v : OOBuyOpt_to (OOBuyOpt_of v) = v.
Proof.
  destruct v as [x0 [x1 []]]. cbv beta iota delta [OOBuyOpt_of OOBuyOpt_to OOBuyOpt_OO OOBuyOpt_OptBuyType].
  all: rewrite ?OO_inv.
  all: reflexivity.
Qed.

Lemma OOBuyOther_inv v : OOBuyOther_to (OOBuyOther_of v) = v.
Proof.
  destruct v as [x0 [x1 []]]. cbv beta iota delta [OOBuyOther_of OOBuyOther_to OOBuyOther_OO OOBuyOther_UnitType].
  all: rewrite ?OO_inv.
  all: reflexivity.
Qed.

Lemma OOBuyStock_inv v : OOBuyStock_to (OOBuyStock_of v) = v.
Proof.
  destruct v as [x0 [x1 []]]. cbv beta iota delta [OOBuyStock_of OOBuyStock_to OOBuyStock_OO OOBuyStock_BuyType].
  all: rewrite ?OO_inv.
  all: reflexivity.
Qed.

Lemma OOSellDebt_inv v : OOSellDebt_to (OOSellDebt_of v) = v.
Proof.
  destruct v as [x0 []]. cbv beta iota delta [OOSellDebt_of OOSellDebt_to OOSellDebt_OO].
  all: rewrite ?OO_inv.
  all: reflexivity.
Qed.

Lemma OOSellMF_inv v : OOSellMF_to (OOSellMF_of v) = v.
Proof.
  destruct v as [x0 [x1 [x2 [x3 []]]]]. cbv beta iota delta [OOSellMF_of OOSellMF_to OOSellMF_OO OOSellMF_SellType OOSellMF_UnitType OOSellMF_SellAll].
  all: rewrite ?OO_inv.
  all: reflexivity.
Qed.

Lemma OOSellOpt_inv v : OOSellOpt_to (OOSellOpt_of v) = v.
Proof.
  destruct v as [x0 [x1 []]]. cbv beta iota delta [OOSellOpt_of OOSellOpt_to OOSellOpt_OO OOSellOpt_OptSellType].
  all: rewrite ?OO_inv.
  all: reflexivity.
Qed.

Lemma OOSellOther_inv v : OOSellOther_to (OOSellOther_of v) = v.
Proof.
  destruct v as [x0 [x1 []]]. cbv beta iota delta [OOSellOther_of OOSellOther_to OOSellOther_OO OOSellOther_UnitType].
  all: rewrite ?OO_inv.
  all: reflexivity.
Qed.

Lemma OOSellStock_inv v : OOSellStock_to (OOSellStock_of v) = v.
Proof.
  destruct v as [x0 [x1 []]]. cbv beta iota delta [OOSellStock_of OOSellStock_to OOSellStock_OO OOSellStock_SellType].
  all: rewrite ?OO_inv.
  all: reflexivity.
Qed.

Lemma OOSwitchMF_inv v : OOSwitchMF_to (OOSwitchMF_of v) = v.
Proof.
  destruct v as [x0 [x1 [x2 [x3 []]]]]. cbv beta iota delta [OOSwitchMF_of OOSwitchMF_to OOSwitchMF_OO OOSwitchMF_SecID OOSwitchMF_UnitType OOSwitchMF_SwitchAll].
  all: rewrite ?OO_inv, ?SecurityID_inv.
  all: reflexivity.
Qed.

Lemma ContribSecurity_inv v : ContribSecurity_to (ContribSecurity_of v) = v.
Proof.
  destruct v as [x0 [x1 [x2 [x3 [x4 [x5 [x6 [x7 [x8 [x9 [x10 [x11 [x12 [x13 [x14 []]]]]]]]]]]]]]]]. cbv beta iota delta [ContribSecurity_of ContribSecurity_to ContribSecurity_SecID ContribSecurity_PreTaxContribPct ContribSecurity_PreTaxContribAmt ContribSecurity_AfterTaxContribPct ContribSecurity_AfterTaxContribAmt ContribSecurity_MatchContribPct ContribSecurity_MatchContribAmt ContribSecurity_ProfitSharingContribPct ContribSecurity_ProfitSharingContribAmt ContribSecurity_RolloverContribPct ContribSecurity_RolloverContribAmt ContribSecurity_OtherVestPct ContribSecurity_OtherVestAmt ContribSecurity_OtherNonVestPct ContribSecurity_OtherNonVestAmt].
  all: rewrite ?SecurityID_inv.
  all: reflexivity.
Qed.

Lemma VestInfo_inv v : VestInfo_to (VestInfo_of v) = v.
Proof.
  destruct v as [x0 [x1 []]]. cbv beta iota delta [VestInfo_of VestInfo_to VestInfo_VestDate VestInfo_VestPct].
  all: reflexivity.
Qed.

Lemma LoanInfo_inv v : LoanInfo_to (LoanInfo_of v) = v.
Proof.
  destruct v as [x0 [x1 [x2 [x3 [x4 [x5 [x6 [x7 [x8 [x9 [x10 [x11 [x12 [x13 [x14 []]]]]]]]]]]]]]]]. cbv beta iota delta [LoanInfo_of LoanInfo_to LoanInfo_LoanID LoanInfo_LoanDesc LoanInfo_InitialLoanBal LoanInfo_LoanStartDate LoanInfo_CurrentLoanBal LoanInfo_DtAsOf LoanInfo_LoanRate LoanInfo_LoanPmtAmt LoanInfo_LoanPmtFreq LoanInfo_LoanPmtsInitial LoanInfo_LoanPmtsRemaining LoanInfo_LoanMaturityDate LoanInfo_LoanTotalProjInterest LoanInfo_LoanInterestToDate LoanInfo_LoanExtPmtDate].
  all: reflexivity.
Qed.

Lemma Inv401KSummaryAggregate_inv v : Inv401KSummaryAggregate_to (Inv401KSummaryAggregate_of v) = v.
Proof.
  destruct v as [x0 [x1 [x2 [x3 [x4 [x5 [x6 [x7 []]]]]]]]]. cbv beta iota delta [Inv401KSummaryAggregate_of Inv401KSummaryAggregate_to Inv401KSummaryAggregate_PreTax Inv401KSummaryAggregate_AfterTax Inv401KSummaryAggregate_Match Inv401KSummaryAggregate_ProfitSharing Inv401KSummaryAggregate_Rollover Inv401KSummaryAggregate_OtherVest Inv401KSummaryAggregate_OtherNonVest Inv401KSummaryAggregate_Total].
  all: reflexivity.
Qed.

Lemma Inv401KSummaryPeriod_inv v : Inv401KSummaryPeriod_to (Inv401KSummaryPeriod_of v) = v.
Proof.
  destruct v as [x0 [x1 [x2 [x3 [x4 []]]]]]. cbv beta iota delta [Inv401KSummaryPeriod_of Inv401KSummaryPeriod_to Inv401KSummaryPeriod_DtStart Inv401KSummaryPeriod_DtEnd Inv401KSummaryPeriod_Contributions Inv401KSummaryPeriod_Withdrawls Inv401KSummaryPeriod_Earnings].
  all: rewrite ?(option_map_iso _ _ Inv401KSummaryAggregate_inv), ?Inv401KSummaryAggregate_inv.
  all: reflexivity.
Qed.

Lemma Inv401K_inv v : Inv401K_to (Inv401K_of v) = v.
Proof.
  destruct v as [x0 [x1 [x2 [x3 [x4 [x5 [x6 [x7 [x8 [x9 [x10 [x11 [x12 [x13 [x14 [x15 [x16 [x17 [x18 [x19 []]]]]]]]]]]]]]]]]]]]]. cbv beta iota delta [Inv401K_of Inv401K_to Inv401K_EmployerName Inv401K_PlanID Inv401K_PlanJoinDate Inv401K_EmployerContactInfo Inv401K_BrokerContactInfo Inv401K_DeferPctPreTax Inv401K_DeferPctAfterTax Inv401K_MatchPct Inv401K_MaxMatchAmt Inv401K_MaxMatchPct Inv401K_StartOfYear Inv401K_BaseMatchAmt Inv401K_BaseMatchPct Inv401K_ContribInfo Inv401K_CurrentVestPct Inv401K_VestInfo Inv401K_LoanInfo Inv401K_YearToDateSummary Inv401K_InceptToDateSummary Inv401K_PeriodToDate].
  all: rewrite ?(map_iso _ _ ContribSecurity_inv), ?(map_iso _ _ LoanInfo_inv), ?(map_iso _ _ VestInfo_inv), ?(option_map_iso _ _ Inv401KSummaryPeriod_inv), ?ContribSecurity_inv, ?Inv401KSummaryPeriod_inv, ?LoanInfo_inv, ?VestInfo_inv.
  all: reflexivity.
Qed.

Lemma Inv401KBal_inv v : Inv401KBal_to (Inv401KBal_of v) = v.
Proof.
  destruct v as [x0 [x1 [x2 [x3 [x4 [x5 [x6 [x7 [x8 [x9 []]]]]]]]]]]. cbv beta iota delta [Inv401KBal_of Inv401KBal_to Inv401KBal_CashBal Inv401KBal_PreTax Inv401KBal_AfterTax Inv401KBal_Match Inv401KBal_ProfitSharing Inv401KBal_Rollover Inv401KBal_OtherVest Inv401KBal_OtherNonVest Inv401KBal_Total Inv401KBal_BalList].
  all: rewrite ?(map_iso _ _ Balance_inv), ?Balance_inv.
  all: reflexivity.
Qed.

Lemma Position_inv v : Position_to (Position_of v) = v.
Proof.
  destruct v as [x|v]; [exact (f_equal (fun y : interp DebtPosition_ty => (inl (y)) : interp_alts Position_alts) (DebtPosition_inv x))|].
  destruct v as [x|v]; [exact (f_equal (fun y : interp MFPosition_ty => (inr (inl (y))) : interp_alts Position_alts) (MFPosition_inv x))|].
  destruct v as [x|v]; [exact (f_equal (fun y : interp OptPosition_ty => (inr (inr (inl (y)))) : interp_alts Position_alts) (OptPosition_inv x))|].
  destruct v as [x|v]; [exact (f_equal (fun y : interp OtherPosition_ty => (inr (inr (inr (inl (y))))) : interp_alts Position_alts) (OtherPosition_inv x))|].
  destruct v as [x|v]; [exact (f_equal (fun y : interp StockPosition_ty => (inr (inr (inr (inr (inl (y)))))) : interp_alts Position_alts) (StockPosition_inv x))|].
  destruct v.
Qed.

Lemma OpenOrder_inv v : OpenOrder_to (OpenOrder_of v) = v.
Proof.
  destruct v as [x|v]; [exact (f_equal (fun y : interp OOBuyDebt_ty => (inl (y)) : interp_alts OpenOrder_alts) (OOBuyDebt_inv x))|].
  destruct v as [x|v]; [exact (f_equal (fun y : interp OOBuyMF_ty => (inr (inl (y))) : interp_alts OpenOrder_alts) (OOBuyMF_inv x))|].
  destruct v as [x|v]; [exact (f_equal (fun y : interp OOBuyOpt_ty => (inr (inr (inl (y)))) : interp_alts OpenOrder_alts) (OOBuyOpt_inv x))|].
  destruct v as [x|v]; [exact (f_equal (fun y : interp OOBuyOther_ty => (inr (inr (inr (inl (y))))) : interp_alts OpenOrder_alts) (OOBuyOther_inv x))|].
  destruct v as [x|v]; [exact (f_equal (fun y : interp OOBuyStock_ty => (inr (inr (inr (inr (inl (y)))))) : interp_alts OpenOrder_alts) (OOBuyStock_inv x))|].
  destruct v as [x|v]; [exact (f_equal (fun y : interp OOSellDebt_ty => (inr (inr (inr (inr (inr (inl (y))))))) : interp_alts OpenOrder_alts) (OOSellDebt_inv x))|].
  destruct v as [x|v]; [exact (f_equal (fun y : interp OOSellMF_ty => (inr (inr (inr (inr (inr (inr (inl (y)))))))) : interp_alts OpenOrder_alts) (OOSellMF_inv x))|].
  destruct v as [x|v]; [exact (f_equal (fun y : interp OOSellOpt_ty => (inr (inr (inr (inr (inr (inr (inr (inl (y))))))))) : interp_alts OpenOrder_alts) (OOSellOpt_inv x))|].
  destruct v as [x|v]; [exact (f_equal (fun y : interp OOSellOther_ty => (inr (inr (inr (inr (inr (inr (inr (inr (inl (y)))))))))) : interp_alts OpenOrder_alts) (OOSellOther_inv x))|].
  destruct v as [x|v]; [exact (f_equal (fun y : interp OOSellStock_ty => (inr (inr (inr (inr (inr (inr (inr (inr (inr (inl (y))))))))))) : interp_alts OpenOrder_alts) (OOSellStock_inv x))|].
  destruct v as [x|v]; [exact (f_equal (fun y : interp OOSwitchMF_ty => (inr (inr (inr (inr (inr (inr (inr (inr (inr (inr (inl (y)))))))))))) : interp_alts OpenOrder_alts) (OOSwitchMF_inv x))|].
  destruct v.
Qed.

Lemma InvStatementResponse_inv v : InvStatementResponse_to (InvStatementResponse_of v) = v.
Proof.
  destruct v as [x0 [x1 [x2 [x3 [x4 [x5 [x6 [x7 [x8 [x9 [x10 [x11 [x12 []]]]]]]]]]]]]]. cbv beta iota delta [InvStatementResponse_of InvStatementResponse_to InvStatementResponse_TrnUID InvStatementResponse_Status InvStatementResponse_CltCookie InvStatementResponse_DtAsOf InvStatementResponse_CurDef InvStatementResponse_InvAcctFrom InvStatementResponse_InvTranList InvStatementResponse_InvPosList InvStatementResponse_InvBal InvStatementResponse_InvOOList InvStatementResponse_MktgInfo InvStatementResponse_Inv401K InvStatementResponse_Inv401KBal].
  all: rewrite ?(map_iso _ _ OpenOrder_inv), ?(map_iso _ _ Position_inv), ?(option_map_iso _ _ Inv401K_inv), ?(option_map_iso _ _ Inv401KBal_inv), ?(option_map_iso _ _ InvBalance_inv), ?(option_map_iso _ _ InvTranList_inv), ?Inv401K_inv, ?Inv401KBal_inv, ?InvAcct_inv, ?InvBalance_inv, ?InvTranList_inv, ?OpenOrder_inv, ?Position_inv, ?Status_inv.
  all: reflexivity.
Qed.

Lemma ProfileRequest_inv v : ProfileRequest_to (ProfileRequest_of v) = v.
Proof.
  destruct v as [x0 [x1 [x2 [x3 [x4 []]]]]]. cbv beta iota delta [ProfileRequest_of ProfileRequest_to ProfileRequest_TrnUID ProfileRequest_CltCookie ProfileRequest_TAN ProfileRequest_ClientRouting ProfileRequest_DtProfUp].
  all: reflexivity.
Qed.

Lemma SignonInfo_inv v : SignonInfo_to (SignonInfo_of v) = v.
Proof.
  destruct v as [x0 [x1 [x2 [x3 [x4 [x5 [x6 [x7 [x8 [x9 [x10 [x11 [x12 [x13 [x14 [x15 [x16 [x17 []]]]]]]]]]]]]]]]]]]. cbv beta iota delta [SignonInfo_of SignonInfo_to SignonInfo_SignonRealm SignonInfo_Min SignonInfo_Max SignonInfo_CharType SignonInfo_CaseSen SignonInfo_Special SignonInfo_Spaces SignonInfo_PinCh SignonInfo_ChgPinFirst SignonInfo_UserCred1Label SignonInfo_UserCred2Label SignonInfo_ClientUIDReq SignonInfo_AuthTokenFirst SignonInfo_AuthTokenLabel SignonInfo_AuthTokenInfoURL SignonInfo_MFAChallengeSupt SignonInfo_MFAChallengeFIRST SignonInfo_AccessTokenReq].
  all: reflexivity.
Qed.

Lemma MessageSet_inv v : MessageSet_to (MessageSet_of v) = v.
Proof.
  destruct v as [x0 [x1 [x2 [x3 [x4 [x5 [x6 [x7 [x8 [x9 [x10 []]]]]]]]]]]]. cbv beta iota delta [MessageSet_of MessageSet_to MessageSet_Name MessageSet_Ver MessageSet_URL MessageSet_OfxSec MessageSet_TranspSec MessageSet_SignonRealm MessageSet_Language MessageSet_SyncMode MessageSet_RefreshSupt MessageSet_RespFileER MessageSet_SpName].
  all: reflexivity.
Qed.

Lemma ProfileResponse_inv v : ProfileResponse_to (ProfileResponse_of v) = v.
Proof.
  destruct v as [x0 [x1 [x2 [x3 [x4 [x5 [x6 [x7 [x8 [x9 [x10 [x11 [x12 [x13 [x14 [x15 [x16 [x17 [x18 []]]]]]]]]]]]]]]]]]]]. cbv beta iota delta [ProfileResponse_of ProfileResponse_to ProfileResponse_TrnUID ProfileResponse_Status ProfileResponse_CltCookie ProfileResponse_MessageSetList ProfileResponse_SignonInfoList ProfileResponse_DtProfUp ProfileResponse_FiName ProfileResponse_Addr1 ProfileResponse_Addr2 ProfileResponse_Addr3 ProfileResponse_City ProfileResponse_State ProfileResponse_PostalCode ProfileResponse_Country ProfileResponse_CsPhone ProfileResponse_TsPhone ProfileResponse_FaxPhone ProfileResponse_URL ProfileResponse_Email].
  all: rewrite ?(map_iso _ _ MessageSet_inv), ?(map_iso _ _ SignonInfo_inv), ?MessageSet_inv, ?SignonInfo_inv, ?Status_inv.
  all: reflexivity.
Qed.
