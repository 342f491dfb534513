(** The struct tags of /repo, transcribed by tools/gen_schema.py: for each
    struct its fields with their element paths, and the conversions between the
    records of Records.v and the values of Codec.v. *)
From Coq Require Import QArith.
From Verif Require Import GoStr GoTime Types Enums EnumTables Records Codec.
Close Scope Q_scope.

Lemma map_iso {A B} (f : A -> B) (g : B -> A) :
  (forall x, g (f x) = x) -> forall l, map g (map f l) = l.
Proof. intros H l. rewrite map_map, (map_ext _ _ H). apply map_id. Qed.

Lemma option_map_iso {A B} (f : A -> B) (g : B -> A) :
  (forall x, g (f x) = x) -> forall o, option_map g (option_map f o) = o.
Proof. intros H [x|]; simpl; congruence. Qed.

(** common.go:264-269 *)
Definition Status_fields : flds :=
  FCons [] (bs "CODE") false (TLeaf LInt)
  (FCons [] (bs "SEVERITY") false (TLeaf LString)
  (FCons [] (bs "MESSAGE") true (TLeaf LString) FNil)).
Definition Status_ty : ty := TStruct (bs "STATUS") Status_fields.
Definition Status_to (r : Status) : interp Status_ty :=
  (Status_Code r, (Status_Severity r, (Status_Message r, tt))).
Definition Status_of (v : interp Status_ty) : Status :=
  let '(x0, (x1, (x2, tt))) := v in
  mkStatus x0 x1 x2.
Lemma Status_iso r : Status_of (Status_to r) = r.
Proof.
  destruct r as [f0 f1 f2]; cbv beta iota delta [Status_of Status_to Status_Code Status_Severity Status_Message].
  all: reflexivity.
Qed.

(** common.go:308-315 *)
Definition BankAcct_fields : flds :=
  FCons [] (bs "BANKID") false (TLeaf LString)
  (FCons [] (bs "BRANCHID") true (TLeaf LString)
  (FCons [] (bs "ACCTID") false (TLeaf LString)
  (FCons [] (bs "ACCTTYPE") false (TLeaf (LEnum enum_acctType))
  (FCons [] (bs "ACCTKEY") true (TLeaf LString) FNil)))).
Definition BankAcct_ty : ty := TStruct [] BankAcct_fields.
Definition BankAcct_to (r : BankAcct) : interp BankAcct_ty :=
  (BankAcct_BankID r, (BankAcct_BranchID r, (BankAcct_AcctID r, (BankAcct_AcctType r, (BankAcct_AcctKey r, tt))))).
Definition BankAcct_of (v : interp BankAcct_ty) : BankAcct :=
  let '(x0, (x1, (x2, (x3, (x4, tt))))) := v in
  mkBankAcct x0 x1 x2 x3 x4.
Lemma BankAcct_iso r : BankAcct_of (BankAcct_to r) = r.
Proof.
  destruct r as [f0 f1 f2 f3 f4]; cbv beta iota delta [BankAcct_of BankAcct_to BankAcct_BankID BankAcct_BranchID BankAcct_AcctID BankAcct_AcctType BankAcct_AcctKey].
  all: reflexivity.
Qed.

(** common.go:332-336 *)
Definition CCAcct_fields : flds :=
  FCons [] (bs "ACCTID") false (TLeaf LString)
  (FCons [] (bs "ACCTKEY") true (TLeaf LString) FNil).
Definition CCAcct_ty : ty := TStruct [] CCAcct_fields.
Definition CCAcct_to (r : CCAcct) : interp CCAcct_ty :=
  (CCAcct_AcctID r, (CCAcct_AcctKey r, tt)).
Definition CCAcct_of (v : interp CCAcct_ty) : CCAcct :=
  let '(x0, (x1, tt)) := v in
  mkCCAcct x0 x1.
Lemma CCAcct_iso r : CCAcct_of (CCAcct_to r) = r.
Proof.
  destruct r as [f0 f1]; cbv beta iota delta [CCAcct_of CCAcct_to CCAcct_AcctID CCAcct_AcctKey].
  all: reflexivity.
Qed.

(** common.go:347-351 *)
Definition InvAcct_fields : flds :=
  FCons [] (bs "BROKERID") false (TLeaf LString)
  (FCons [] (bs "ACCTID") false (TLeaf LString) FNil).
Definition InvAcct_ty : ty := TStruct [] InvAcct_fields.
Definition InvAcct_to (r : InvAcct) : interp InvAcct_ty :=
  (InvAcct_BrokerID r, (InvAcct_AcctID r, tt)).
Definition InvAcct_of (v : interp InvAcct_ty) : InvAcct :=
  let '(x0, (x1, tt)) := v in
  mkInvAcct x0 x1.
Lemma InvAcct_iso r : InvAcct_of (InvAcct_to r) = r.
Proof.
  destruct r as [f0 f1]; cbv beta iota delta [InvAcct_of InvAcct_to InvAcct_BrokerID InvAcct_AcctID].
  all: reflexivity.
Qed.

(** common.go:358-362 *)
Definition Currency_fields : flds :=
  FCons [] (bs "CURRATE") false (TLeaf LAmount)
  (FCons [] (bs "CURSYM") false (TLeaf LCurr) FNil).
Definition Currency_ty : ty := TStruct [] Currency_fields.
Definition Currency_to (r : Currency) : interp Currency_ty :=
  (Currency_CurRate r, (Currency_CurSym r, tt)).
Definition Currency_of (v : interp Currency_ty) : Currency :=
  let '(x0, (x1, tt)) := v in
  mkCurrency x0 x1.
Lemma Currency_iso r : Currency_of (Currency_to r) = r.
Proof.
  destruct r as [f0 f1]; cbv beta iota delta [Currency_of Currency_to Currency_CurRate Currency_CurSym].
  all: reflexivity.
Qed.

(** seclist.go:10-14 *)
Definition SecurityID_fields : flds :=
  FCons [] (bs "UNIQUEID") false (TLeaf LString)
  (FCons [] (bs "UNIQUEIDTYPE") false (TLeaf LString) FNil).
Definition SecurityID_ty : ty := TStruct (bs "SECID") SecurityID_fields.
Definition SecurityID_to (r : SecurityID) : interp SecurityID_ty :=
  (SecurityID_UniqueID r, (SecurityID_UniqueIDType r, tt)).
Definition SecurityID_of (v : interp SecurityID_ty) : SecurityID :=
  let '(x0, (x1, tt)) := v in
  mkSecurityID x0 x1.
Lemma SecurityID_iso r : SecurityID_of (SecurityID_to r) = r.
Proof.
  destruct r as [f0 f1]; cbv beta iota delta [SecurityID_of SecurityID_to SecurityID_UniqueID SecurityID_UniqueIDType].
  all: reflexivity.
Qed.

(** seclist.go:19-25 *)
Definition SecurityRequest_fields : flds :=
  FCons [] (bs "SECID") true (TPtr SecurityID_ty)
  (FCons [] (bs "TICKER") true (TLeaf LString)
  (FCons [] (bs "FIID") true (TLeaf LString) FNil)).
Definition SecurityRequest_ty : ty := TStruct (bs "SECRQ") SecurityRequest_fields.
Definition SecurityRequest_to (r : SecurityRequest) : interp SecurityRequest_ty :=
  (option_map SecurityID_to (SecurityRequest_SecID r), (SecurityRequest_Ticker r, (SecurityRequest_FiID r, tt))).
Definition SecurityRequest_of (v : interp SecurityRequest_ty) : SecurityRequest :=
  let '(x0, (x1, (x2, tt))) := v in
  mkSecurityRequest (option_map SecurityID_of x0) x1 x2.
Lemma SecurityRequest_iso r : SecurityRequest_of (SecurityRequest_to r) = r.
Proof.
  destruct r as [f0 f1 f2]; cbv beta iota delta [SecurityRequest_of SecurityRequest_to SecurityRequest_SecID SecurityRequest_Ticker SecurityRequest_FiID].
  all: rewrite ?(option_map_iso _ _ SecurityID_iso), ?SecurityID_iso.
  all: reflexivity.
Qed.

(** seclist.go:29-36 *)
Definition SecListRequest_fields : flds :=
  FCons [] (bs "TRNUID") false (TLeaf LUID)
  (FCons [] (bs "CLTCOOKIE") true (TLeaf LString)
  (FCons [] (bs "TAN") true (TLeaf LString)
  (FCons [bs "SECLISTRQ"] (bs "SECRQ") true (TSlice SecurityRequest_ty) FNil))).
Definition SecListRequest_ty : ty := TStruct (bs "SECLISTTRNRQ") SecListRequest_fields.
Definition SecListRequest_to (r : SecListRequest) : interp SecListRequest_ty :=
  (SecListRequest_TrnUID r, (SecListRequest_CltCookie r, (SecListRequest_TAN r, (map SecurityRequest_to (SecListRequest_Securities r), tt)))).
Definition SecListRequest_of (v : interp SecListRequest_ty) : SecListRequest :=
  let '(x0, (x1, (x2, (x3, tt)))) := v in
  mkSecListRequest x0 x1 x2 (map SecurityRequest_of x3).
Lemma SecListRequest_iso r : SecListRequest_of (SecListRequest_to r) = r.
Proof.
  destruct r as [f0 f1 f2 f3]; cbv beta iota delta [SecListRequest_of SecListRequest_to SecListRequest_TrnUID SecListRequest_CltCookie SecListRequest_TAN SecListRequest_Securities].
  all: rewrite ?(map_iso _ _ SecurityRequest_iso), ?SecurityRequest_iso.
  all: reflexivity.
Qed.

(** seclist.go:64-71 *)
Definition SecListResponse_fields : flds :=
  FCons [] (bs "TRNUID") false (TLeaf LUID)
  (FCons [] (bs "STATUS") false Status_ty
  (FCons [] (bs "CLTCOOKIE") true (TLeaf LString) FNil)).
Definition SecListResponse_ty : ty := TStruct (bs "SECLISTTRNRS") SecListResponse_fields.
Definition SecListResponse_to (r : SecListResponse) : interp SecListResponse_ty :=
  (SecListResponse_TrnUID r, (Status_to (SecListResponse_Status r), (SecListResponse_CltCookie r, tt))).
Definition SecListResponse_of (v : interp SecListResponse_ty) : SecListResponse :=
  let '(x0, (x1, (x2, tt))) := v in
  mkSecListResponse x0 (Status_of x1) x2.
Lemma SecListResponse_iso r : SecListResponse_of (SecListResponse_to r) = r.
Proof.
  destruct r as [f0 f1 f2]; cbv beta iota delta [SecListResponse_of SecListResponse_to SecListResponse_TrnUID SecListResponse_Status SecListResponse_CltCookie].
  all: rewrite ?Status_iso.
  all: reflexivity.
Qed.

(** seclist.go:102-113 *)
Definition SecInfo_fields : flds :=
  FCons [] (bs "SECID") false SecurityID_ty
  (FCons [] (bs "SECNAME") false (TLeaf LString)
  (FCons [] (bs "TICKER") true (TLeaf LString)
  (FCons [] (bs "FIID") true (TLeaf LString)
  (FCons [] (bs "RATING") true (TLeaf LString)
  (FCons [] (bs "UNITPRICE") true (TLeaf LAmount)
  (FCons [] (bs "DTASOF") true (TPtr (TLeaf LDate))
  (FCons [] (bs "CURRENCY") true (TPtr Currency_ty)
  (FCons [] (bs "MEMO") true (TLeaf LString) FNil)))))))).
Definition SecInfo_ty : ty := TStruct (bs "SECINFO") SecInfo_fields.
Definition SecInfo_to (r : SecInfo) : interp SecInfo_ty :=
  (SecurityID_to (SecInfo_SecID r), (SecInfo_SecName r, (SecInfo_Ticker r, (SecInfo_FiID r, (SecInfo_Rating r, (SecInfo_UnitPrice r, (SecInfo_DtAsOf r, (option_map Currency_to (SecInfo_Currency r), (SecInfo_Memo r, tt))))))))).
Definition SecInfo_of (v : interp SecInfo_ty) : SecInfo :=
  let '(x0, (x1, (x2, (x3, (x4, (x5, (x6, (x7, (x8, tt))))))))) := v in
  mkSecInfo (SecurityID_of x0) x1 x2 x3 x4 x5 x6 (option_map Currency_of x7) x8.
Lemma SecInfo_iso r : SecInfo_of (SecInfo_to r) = r.
Proof.
  destruct r as [f0 f1 f2 f3 f4 f5 f6 f7 f8]; cbv beta iota delta [SecInfo_of SecInfo_to SecInfo_SecID SecInfo_SecName SecInfo_Ticker SecInfo_FiID SecInfo_Rating SecInfo_UnitPrice SecInfo_DtAsOf SecInfo_Currency SecInfo_Memo].
  all: rewrite ?(option_map_iso _ _ Currency_iso), ?Currency_iso, ?SecurityID_iso.
  all: reflexivity.
Qed.

(** seclist.go:116-133 *)
Definition DebtInfo_fields : flds :=
  FCons [] (bs "SECINFO") false SecInfo_ty
  (FCons [] (bs "PARVALUE") false (TLeaf LAmount)
  (FCons [] (bs "DEBTTYPE") false (TLeaf (LEnum enum_debtType))
  (FCons [] (bs "DEBTCLASS") true (TLeaf (LEnum enum_debtClass))
  (FCons [] (bs "COUPONRT") true (TLeaf LAmount)
  (FCons [] (bs "DTCOUPON") true (TPtr (TLeaf LDate))
  (FCons [] (bs "COUPONFREQ") true (TLeaf (LEnum enum_couponFreq))
  (FCons [] (bs "CALLPRICE") true (TLeaf LAmount)
  (FCons [] (bs "YIELDTOCALL") true (TLeaf LAmount)
  (FCons [] (bs "DTCALL") true (TPtr (TLeaf LDate))
  (FCons [] (bs "CALLTYPE") false (TLeaf (LEnum enum_callType))
  (FCons [] (bs "YIELDTOMAT") true (TLeaf LAmount)
  (FCons [] (bs "DTMAT") true (TPtr (TLeaf LDate))
  (FCons [] (bs "ASSETCLASS") true (TLeaf (LEnum enum_assetClass))
  (FCons [] (bs "FIASSETCLASS") true (TLeaf LString) FNil)))))))))))))).
Definition DebtInfo_ty : ty := TStruct (bs "DEBTINFO") DebtInfo_fields.
Definition DebtInfo_to (r : DebtInfo) : interp DebtInfo_ty :=
  (SecInfo_to (DebtInfo_SecInfo r), (DebtInfo_ParValue r, (DebtInfo_DebtType r, (DebtInfo_DebtClass r, (DebtInfo_CouponRate r, (DebtInfo_DtCoupon r, (DebtInfo_CouponFreq r, (DebtInfo_CallPrice r, (DebtInfo_YieldToCall r, (DebtInfo_DtCall r, (DebtInfo_CallType r, (DebtInfo_YieldToMat r, (DebtInfo_DtMat r, (DebtInfo_AssetClass r, (DebtInfo_FiAssetClass r, tt))))))))))))))).
Definition DebtInfo_of (v : interp DebtInfo_ty) : DebtInfo :=
  let '(x0, (x1, (x2, (x3, (x4, (x5, (x6, (x7, (x8, (x9, (x10, (x11, (x12, (x13, (x14, tt))))))))))))))) := v in
  mkDebtInfo (SecInfo_of x0) x1 x2 x3 x4 x5 x6 x7 x8 x9 x10 x11 x12 x13 x14.
Lemma DebtInfo_iso r : DebtInfo_of (DebtInfo_to r) = r.
Proof.
  destruct r as [f0 f1 f2 f3 f4 f5 f6 f7 f8 f9 f10 f11 f12 f13 f14]; cbv beta iota delta [DebtInfo_of DebtInfo_to DebtInfo_SecInfo DebtInfo_ParValue DebtInfo_DebtType DebtInfo_DebtClass DebtInfo_CouponRate DebtInfo_DtCoupon DebtInfo_CouponFreq DebtInfo_CallPrice DebtInfo_YieldToCall DebtInfo_DtCall DebtInfo_CallType DebtInfo_YieldToMat DebtInfo_DtMat DebtInfo_AssetClass DebtInfo_FiAssetClass].
  all: rewrite ?SecInfo_iso.
  all: reflexivity.
Qed.

(** seclist.go:147-151 *)
Definition AssetPortion_fields : flds :=
  FCons [] (bs "ASSETCLASS") false (TLeaf (LEnum enum_assetClass))
  (FCons [] (bs "PERCENT") false (TLeaf LAmount) FNil).
Definition AssetPortion_ty : ty := TStruct (bs "PORTION") AssetPortion_fields.
Definition AssetPortion_to (r : AssetPortion) : interp AssetPortion_ty :=
  (AssetPortion_AssetClass r, (AssetPortion_Percent r, tt)).
Definition AssetPortion_of (v : interp AssetPortion_ty) : AssetPortion :=
  let '(x0, (x1, tt)) := v in
  mkAssetPortion x0 x1.
Lemma AssetPortion_iso r : AssetPortion_of (AssetPortion_to r) = r.
Proof.
  destruct r as [f0 f1]; cbv beta iota delta [AssetPortion_of AssetPortion_to AssetPortion_AssetClass AssetPortion_Percent].
  all: reflexivity.
Qed.

(** seclist.go:156-160 *)
Definition FiAssetPortion_fields : flds :=
  FCons [] (bs "FIASSETCLASS") true (TLeaf LString)
  (FCons [] (bs "PERCENT") false (TLeaf LAmount) FNil).
Definition FiAssetPortion_ty : ty := TStruct (bs "FIPORTION") FiAssetPortion_fields.
Definition FiAssetPortion_to (r : FiAssetPortion) : interp FiAssetPortion_ty :=
  (FiAssetPortion_FiAssetClass r, (FiAssetPortion_Percent r, tt)).
Definition FiAssetPortion_of (v : interp FiAssetPortion_ty) : FiAssetPortion :=
  let '(x0, (x1, tt)) := v in
  mkFiAssetPortion x0 x1.
Lemma FiAssetPortion_iso r : FiAssetPortion_of (FiAssetPortion_to r) = r.
Proof.
  destruct r as [f0 f1]; cbv beta iota delta [FiAssetPortion_of FiAssetPortion_to FiAssetPortion_FiAssetClass FiAssetPortion_Percent].
  all: reflexivity.
Qed.

(** seclist.go:163-171 *)
Definition MFInfo_fields : flds :=
  FCons [] (bs "SECINFO") false SecInfo_ty
  (FCons [] (bs "MFTYPE") false (TLeaf (LEnum enum_mfType))
  (FCons [] (bs "YIELD") true (TLeaf LAmount)
  (FCons [] (bs "DTYIELDASOF") true (TPtr (TLeaf LDate))
  (FCons [bs "MFASSETCLASS"] (bs "PORTION") false (TSlice AssetPortion_ty)
  (FCons [bs "FIMFASSETCLASS"] (bs "FIPORTION") false (TSlice FiAssetPortion_ty) FNil))))).
Definition MFInfo_ty : ty := TStruct (bs "MFINFO") MFInfo_fields.
Definition MFInfo_to (r : MFInfo) : interp MFInfo_ty :=
  (SecInfo_to (MFInfo_SecInfo r), (MFInfo_MfType r, (MFInfo_Yield r, (MFInfo_DtYieldAsOf r, (map AssetPortion_to (MFInfo_AssetClasses r), (map FiAssetPortion_to (MFInfo_FiAssetClasses r), tt)))))).
Definition MFInfo_of (v : interp MFInfo_ty) : MFInfo :=
  let '(x0, (x1, (x2, (x3, (x4, (x5, tt)))))) := v in
  mkMFInfo (SecInfo_of x0) x1 x2 x3 (map AssetPortion_of x4) (map FiAssetPortion_of x5).
Lemma MFInfo_iso r : MFInfo_of (MFInfo_to r) = r.
Proof.
  destruct r as [f0 f1 f2 f3 f4 f5]; cbv beta iota delta [MFInfo_of MFInfo_to MFInfo_SecInfo MFInfo_MfType MFInfo_Yield MFInfo_DtYieldAsOf MFInfo_AssetClasses MFInfo_FiAssetClasses].
  all: rewrite ?(map_iso _ _ AssetPortion_iso), ?(map_iso _ _ FiAssetPortion_iso), ?AssetPortion_iso, ?FiAssetPortion_iso, ?SecInfo_iso.
  all: reflexivity.
Qed.

(** seclist.go:184-194 *)
Definition OptInfo_fields : flds :=
  FCons [] (bs "SECINFO") false SecInfo_ty
  (FCons [] (bs "OPTTYPE") false (TLeaf (LEnum enum_optType))
  (FCons [] (bs "STRIKEPRICE") false (TLeaf LAmount)
  (FCons [] (bs "DTEXPIRE") false (TLeaf LDate)
  (FCons [] (bs "SHPERCTRCT") false (TLeaf LInt)
  (FCons [] (bs "SECID") true (TPtr SecurityID_ty)
  (FCons [] (bs "ASSETCLASS") true (TLeaf (LEnum enum_assetClass))
  (FCons [] (bs "FIASSETCLASS") true (TLeaf LString) FNil))))))).
Definition OptInfo_ty : ty := TStruct (bs "OPTINFO") OptInfo_fields.
Definition OptInfo_to (r : OptInfo) : interp OptInfo_ty :=
  (SecInfo_to (OptInfo_SecInfo r), (OptInfo_OptType r, (OptInfo_StrikePrice r, (OptInfo_DtExpire r, (OptInfo_ShPerCtrct r, (option_map SecurityID_to (OptInfo_SecID r), (OptInfo_AssetClass r, (OptInfo_FiAssetClass r, tt)))))))).
Definition OptInfo_of (v : interp OptInfo_ty) : OptInfo :=
  let '(x0, (x1, (x2, (x3, (x4, (x5, (x6, (x7, tt)))))))) := v in
  mkOptInfo (SecInfo_of x0) x1 x2 x3 x4 (option_map SecurityID_of x5) x6 x7.
Lemma OptInfo_iso r : OptInfo_of (OptInfo_to r) = r.
Proof.
  destruct r as [f0 f1 f2 f3 f4 f5 f6 f7]; cbv beta iota delta [OptInfo_of OptInfo_to OptInfo_SecInfo OptInfo_OptType OptInfo_StrikePrice OptInfo_DtExpire OptInfo_ShPerCtrct OptInfo_SecID OptInfo_AssetClass OptInfo_FiAssetClass].
  all: rewrite ?(option_map_iso _ _ SecurityID_iso), ?SecInfo_iso, ?SecurityID_iso.
  all: reflexivity.
Qed.

(** seclist.go:208-214 *)
Definition OtherInfo_fields : flds :=
  FCons [] (bs "SECINFO") false SecInfo_ty
  (FCons [] (bs "TYPEDESC") true (TLeaf LString)
  (FCons [] (bs "ASSETCLASS") true (TLeaf (LEnum enum_assetClass))
  (FCons [] (bs "FIASSETCLASS") true (TLeaf LString) FNil))).
Definition OtherInfo_ty : ty := TStruct (bs "OTHERINFO") OtherInfo_fields.
Definition OtherInfo_to (r : OtherInfo) : interp OtherInfo_ty :=
  (SecInfo_to (OtherInfo_SecInfo r), (OtherInfo_TypeDesc r, (OtherInfo_AssetClass r, (OtherInfo_FiAssetClass r, tt)))).
Definition OtherInfo_of (v : interp OtherInfo_ty) : OtherInfo :=
  let '(x0, (x1, (x2, (x3, tt)))) := v in
  mkOtherInfo (SecInfo_of x0) x1 x2 x3.
Lemma OtherInfo_iso r : OtherInfo_of (OtherInfo_to r) = r.
Proof.
  destruct r as [f0 f1 f2 f3]; cbv beta iota delta [OtherInfo_of OtherInfo_to OtherInfo_SecInfo OtherInfo_TypeDesc OtherInfo_AssetClass OtherInfo_FiAssetClass].
  all: rewrite ?SecInfo_iso.
  all: reflexivity.
Qed.

(** seclist.go:227-235 *)
Definition StockInfo_fields : flds :=
  FCons [] (bs "SECINFO") false SecInfo_ty
  (FCons [] (bs "STOCKTYPE") true (TLeaf (LEnum enum_stockType))
  (FCons [] (bs "YIELD") true (TLeaf LAmount)
  (FCons [] (bs "DTYIELDASOF") true (TPtr (TLeaf LDate))
  (FCons [] (bs "ASSETCLASS") true (TLeaf (LEnum enum_assetClass))
  (FCons [] (bs "FIASSETCLASS") true (TLeaf LString) FNil))))).
Definition StockInfo_ty : ty := TStruct (bs "STOCKINFO") StockInfo_fields.
Definition StockInfo_to (r : StockInfo) : interp StockInfo_ty :=
  (SecInfo_to (StockInfo_SecInfo r), (StockInfo_StockType r, (StockInfo_Yield r, (StockInfo_DtYieldAsOf r, (StockInfo_AssetClass r, (StockInfo_FiAssetClass r, tt)))))).
Definition StockInfo_of (v : interp StockInfo_ty) : StockInfo :=
  let '(x0, (x1, (x2, (x3, (x4, (x5, tt)))))) := v in
  mkStockInfo (SecInfo_of x0) x1 x2 x3 x4 x5.
Lemma StockInfo_iso r : StockInfo_of (StockInfo_to r) = r.
Proof.
  destruct r as [f0 f1 f2 f3 f4 f5]; cbv beta iota delta [StockInfo_of StockInfo_to StockInfo_SecInfo StockInfo_StockType StockInfo_Yield StockInfo_DtYieldAsOf StockInfo_AssetClass StockInfo_FiAssetClass].
  all: rewrite ?SecInfo_iso.
  all: reflexivity.
Qed.

(** seclist.go:272-319 and 322-358: the names accepted and the names written. *)
Definition Security_alts : alts :=
  ACons (bs "DEBTINFO") (bs "DEBTINFO") DebtInfo_ty
  (ACons (bs "MFINFO") (bs "MFINFO") MFInfo_ty
  (ACons (bs "OPTINFO") (bs "OPTINFO") OptInfo_ty
  (ACons (bs "OTHERINFO") (bs "OTHERINFO") OtherInfo_ty
  (ACons (bs "STOCKINFO") (bs "STOCKINFO") StockInfo_ty ANil)))).
Definition Security_to (r : Security) : interp_alts Security_alts :=
  match r with
  | Security_DebtInfo x => inl (DebtInfo_to x)
  | Security_MFInfo x => inr (inl (MFInfo_to x))
  | Security_OptInfo x => inr (inr (inl (OptInfo_to x)))
  | Security_OtherInfo x => inr (inr (inr (inl (OtherInfo_to x))))
  | Security_StockInfo x => inr (inr (inr (inr (inl (StockInfo_to x)))))
  end.
Definition Security_of (v0 : interp_alts Security_alts) : Security :=
  match v0 with inl x => Security_DebtInfo (DebtInfo_of x) | inr v1 =>
  match v1 with inl x => Security_MFInfo (MFInfo_of x) | inr v2 =>
  match v2 with inl x => Security_OptInfo (OptInfo_of x) | inr v3 =>
  match v3 with inl x => Security_OtherInfo (OtherInfo_of x) | inr v4 =>
  match v4 with inl x => Security_StockInfo (StockInfo_of x) | inr v5 =>
  match v5 with end end end end end end.
Lemma Security_iso r : Security_of (Security_to r) = r.
Proof.
  destruct r; cbv beta iota delta [Security_of Security_to ].
  all: rewrite ?DebtInfo_iso, ?MFInfo_iso, ?OptInfo_iso, ?OtherInfo_iso, ?StockInfo_iso.
  all: reflexivity.
Qed.

(** seclist.go:249-252, and its UnmarshalXML and MarshalXML methods *)
Definition SecurityList_fields : flds :=
  FCons [] (bs "") false (TAlts Security_alts) FNil.
Definition SecurityList_ty : ty := TCustom (bs "SECLIST") SecurityList_fields.
Definition SecurityList_to (r : SecurityList) : interp SecurityList_ty :=
  (map Security_to (SecurityList_Securities r), tt).
Definition SecurityList_of (v : interp SecurityList_ty) : SecurityList :=
  let '(x0, tt) := v in
  mkSecurityList (map Security_of x0).
Lemma SecurityList_iso r : SecurityList_of (SecurityList_to r) = r.
Proof.
  destruct r as [f0]; cbv beta iota delta [SecurityList_of SecurityList_to SecurityList_Securities].
  all: rewrite ?(map_iso _ _ Security_iso), ?Security_iso.
  all: reflexivity.
Qed.

(** signon.go:11-24 *)
Definition SignonRequest_fields : flds :=
  FCons [] (bs "DTCLIENT") false (TLeaf LDate)
  (FCons [] (bs "USERID") false (TLeaf LString)
  (FCons [] (bs "USERPASS") true (TLeaf LString)
  (FCons [] (bs "USERKEY") true (TLeaf LString)
  (FCons [] (bs "GENUSERKEY") true (TLeaf LBool)
  (FCons [] (bs "LANGUAGE") false (TLeaf LString)
  (FCons [bs "FI"] (bs "ORG") false (TLeaf LString)
  (FCons [bs "FI"] (bs "FID") false (TLeaf LString)
  (FCons [] (bs "APPID") false (TLeaf LString)
  (FCons [] (bs "APPVER") false (TLeaf LString)
  (FCons [] (bs "CLIENTUID") true (TLeaf LUID) FNil)))))))))).
Definition SignonRequest_ty : ty := TStruct (bs "SONRQ") SignonRequest_fields.
Definition SignonRequest_to (r : SignonRequest) : interp SignonRequest_ty :=
  (SignonRequest_DtClient r, (SignonRequest_UserID r, (SignonRequest_UserPass r, (SignonRequest_UserKey r, (SignonRequest_GenUserKey r, (SignonRequest_Language r, (SignonRequest_Org r, (SignonRequest_Fid r, (SignonRequest_AppID r, (SignonRequest_AppVer r, (SignonRequest_ClientUID r, tt))))))))))).
Definition SignonRequest_of (v : interp SignonRequest_ty) : SignonRequest :=
  let '(x0, (x1, (x2, (x3, (x4, (x5, (x6, (x7, (x8, (x9, (x10, tt))))))))))) := v in
  mkSignonRequest x0 x1 x2 x3 x4 x5 x6 x7 x8 x9 x10.
Lemma SignonRequest_iso r : SignonRequest_of (SignonRequest_to r) = r.
Proof.
  destruct r as [f0 f1 f2 f3 f4 f5 f6 f7 f8 f9 f10]; cbv beta iota delta [SignonRequest_of SignonRequest_to SignonRequest_DtClient SignonRequest_UserID SignonRequest_UserPass SignonRequest_UserKey SignonRequest_GenUserKey SignonRequest_Language SignonRequest_Org SignonRequest_Fid SignonRequest_AppID SignonRequest_AppVer SignonRequest_ClientUID].
  all: reflexivity.
Qed.

(** signon.go:62-75 *)
Definition SignonResponse_fields : flds :=
  FCons [] (bs "STATUS") false Status_ty
  (FCons [] (bs "DTSERVER") false (TLeaf LDate)
  (FCons [] (bs "USERKEY") true (TLeaf LString)
  (FCons [] (bs "TSKEYEXPIRE") true (TPtr (TLeaf LDate))
  (FCons [] (bs "LANGUAGE") false (TLeaf LString)
  (FCons [] (bs "DTPROFUP") true (TPtr (TLeaf LDate))
  (FCons [] (bs "DTACCTUP") true (TPtr (TLeaf LDate))
  (FCons [bs "FI"] (bs "ORG") false (TLeaf LString)
  (FCons [bs "FI"] (bs "FID") false (TLeaf LString)
  (FCons [] (bs "SESSCOOKIE") true (TLeaf LString)
  (FCons [] (bs "ACCESSKEY") true (TLeaf LString) FNil)))))))))).
Definition SignonResponse_ty : ty := TStruct (bs "SONRS") SignonResponse_fields.
Definition SignonResponse_to (r : SignonResponse) : interp SignonResponse_ty :=
  (Status_to (SignonResponse_Status r), (SignonResponse_DtServer r, (SignonResponse_UserKey r, (SignonResponse_TsKeyExpire r, (SignonResponse_Language r, (SignonResponse_DtProfUp r, (SignonResponse_DtAcctUp r, (SignonResponse_Org r, (SignonResponse_Fid r, (SignonResponse_SessCookie r, (SignonResponse_AccessKey r, tt))))))))))).
Definition SignonResponse_of (v : interp SignonResponse_ty) : SignonResponse :=
  let '(x0, (x1, (x2, (x3, (x4, (x5, (x6, (x7, (x8, (x9, (x10, tt))))))))))) := v in
  mkSignonResponse (Status_of x0) x1 x2 x3 x4 x5 x6 x7 x8 x9 x10.
Lemma SignonResponse_iso r : SignonResponse_of (SignonResponse_to r) = r.
Proof.
  destruct r as [f0 f1 f2 f3 f4 f5 f6 f7 f8 f9 f10]; cbv beta iota delta [SignonResponse_of SignonResponse_to SignonResponse_Status SignonResponse_DtServer SignonResponse_UserKey SignonResponse_TsKeyExpire SignonResponse_Language SignonResponse_DtProfUp SignonResponse_DtAcctUp SignonResponse_Org SignonResponse_Fid SignonResponse_SessCookie SignonResponse_AccessKey].
  all: rewrite ?Status_iso.
  all: reflexivity.
Qed.

(** signup.go:10-17 *)
Definition AcctInfoRequest_fields : flds :=
  FCons [] (bs "TRNUID") false (TLeaf LUID)
  (FCons [] (bs "CLTCOOKIE") true (TLeaf LString)
  (FCons [] (bs "TAN") true (TLeaf LString)
  (FCons [bs "ACCTINFORQ"] (bs "DTACCTUP") false (TLeaf LDate) FNil))).
Definition AcctInfoRequest_ty : ty := TStruct (bs "ACCTINFOTRNRQ") AcctInfoRequest_fields.
Definition AcctInfoRequest_to (r : AcctInfoRequest) : interp AcctInfoRequest_ty :=
  (AcctInfoRequest_TrnUID r, (AcctInfoRequest_CltCookie r, (AcctInfoRequest_TAN r, (AcctInfoRequest_DtAcctUp r, tt)))).
Definition AcctInfoRequest_of (v : interp AcctInfoRequest_ty) : AcctInfoRequest :=
  let '(x0, (x1, (x2, (x3, tt)))) := v in
  mkAcctInfoRequest x0 x1 x2 x3.
Lemma AcctInfoRequest_iso r : AcctInfoRequest_of (AcctInfoRequest_to r) = r.
Proof.
  destruct r as [f0 f1 f2 f3]; cbv beta iota delta [AcctInfoRequest_of AcctInfoRequest_to AcctInfoRequest_TrnUID AcctInfoRequest_CltCookie AcctInfoRequest_TAN AcctInfoRequest_DtAcctUp].
  all: reflexivity.
Qed.

(** signup.go:41-57 *)
Definition HolderInfo_fields : flds :=
  FCons [] (bs "FIRSTNAME") false (TLeaf LString)
  (FCons [] (bs "MIDDLENAME") true (TLeaf LString)
  (FCons [] (bs "LASTNAME") false (TLeaf LString)
  (FCons [] (bs "ADDR1") false (TLeaf LString)
  (FCons [] (bs "ADDR2") true (TLeaf LString)
  (FCons [] (bs "ADDR3") true (TLeaf LString)
  (FCons [] (bs "CITY") false (TLeaf LString)
  (FCons [] (bs "STATE") false (TLeaf LString)
  (FCons [] (bs "POSTALCODE") false (TLeaf LString)
  (FCons [] (bs "COUNTRY") true (TLeaf LString)
  (FCons [] (bs "DAYPHONE") true (TLeaf LString)
  (FCons [] (bs "EVEPHONE") true (TLeaf LString)
  (FCons [] (bs "EMAIL") true (TLeaf LString)
  (FCons [] (bs "HOLDERTYPE") true (TLeaf (LEnum enum_holderType)) FNil))))))))))))).
Definition HolderInfo_ty : ty := TStruct [] HolderInfo_fields.
Definition HolderInfo_to (r : HolderInfo) : interp HolderInfo_ty :=
  (HolderInfo_FirstName r, (HolderInfo_MiddleName r, (HolderInfo_LastName r, (HolderInfo_Addr1 r, (HolderInfo_Addr2 r, (HolderInfo_Addr3 r, (HolderInfo_City r, (HolderInfo_State r, (HolderInfo_PostalCode r, (HolderInfo_Country r, (HolderInfo_DayPhone r, (HolderInfo_EvePhone r, (HolderInfo_Email r, (HolderInfo_HolderType r, tt)))))))))))))).
Definition HolderInfo_of (v : interp HolderInfo_ty) : HolderInfo :=
  let '(x0, (x1, (x2, (x3, (x4, (x5, (x6, (x7, (x8, (x9, (x10, (x11, (x12, (x13, tt)))))))))))))) := v in
  mkHolderInfo x0 x1 x2 x3 x4 x5 x6 x7 x8 x9 x10 x11 x12 x13.
Lemma HolderInfo_iso r : HolderInfo_of (HolderInfo_to r) = r.
Proof.
  destruct r as [f0 f1 f2 f3 f4 f5 f6 f7 f8 f9 f10 f11 f12 f13]; cbv beta iota delta [HolderInfo_of HolderInfo_to HolderInfo_FirstName HolderInfo_MiddleName HolderInfo_LastName HolderInfo_Addr1 HolderInfo_Addr2 HolderInfo_Addr3 HolderInfo_City HolderInfo_State HolderInfo_PostalCode HolderInfo_Country HolderInfo_DayPhone HolderInfo_EvePhone HolderInfo_Email HolderInfo_HolderType].
  all: reflexivity.
Qed.

(** signup.go:62-74 *)
Definition BankAcctInfo_fields : flds :=
  FCons [] (bs "BANKACCTFROM") false BankAcct_ty
  (FCons [] (bs "SUPTXDL") false (TLeaf LBool)
  (FCons [] (bs "XFERSRC") false (TLeaf LBool)
  (FCons [] (bs "XFERDEST") false (TLeaf LBool)
  (FCons [] (bs "MATURITYDATE") true (TLeaf LDate)
  (FCons [] (bs "MATURITYAMOUNT") true (TLeaf LAmount)
  (FCons [] (bs "MINBALREQ") true (TLeaf LAmount)
  (FCons [] (bs "ACCTCLASSIFICATION") true (TLeaf (LEnum enum_acctClassification))
  (FCons [] (bs "OVERDRAFTLIMIT") true (TLeaf LAmount)
  (FCons [] (bs "SVCSTATUS") false (TLeaf (LEnum enum_svcStatus)) FNil))))))))).
Definition BankAcctInfo_ty : ty := TStruct (bs "BANKACCTINFO") BankAcctInfo_fields.
Definition BankAcctInfo_to (r : BankAcctInfo) : interp BankAcctInfo_ty :=
  (BankAcct_to (BankAcctInfo_BankAcctFrom r), (BankAcctInfo_SupTxDl r, (BankAcctInfo_XferSrc r, (BankAcctInfo_XferDest r, (BankAcctInfo_MaturityDate r, (BankAcctInfo_MaturityAmt r, (BankAcctInfo_MinBalReq r, (BankAcctInfo_AcctClassification r, (BankAcctInfo_OverdraftLimit r, (BankAcctInfo_SvcStatus r, tt)))))))))).
Definition BankAcctInfo_of (v : interp BankAcctInfo_ty) : BankAcctInfo :=
  let '(x0, (x1, (x2, (x3, (x4, (x5, (x6, (x7, (x8, (x9, tt)))))))))) := v in
  mkBankAcctInfo (BankAcct_of x0) x1 x2 x3 x4 x5 x6 x7 x8 x9.
Lemma BankAcctInfo_iso r : BankAcctInfo_of (BankAcctInfo_to r) = r.
Proof.
  destruct r as [f0 f1 f2 f3 f4 f5 f6 f7 f8 f9]; cbv beta iota delta [BankAcctInfo_of BankAcctInfo_to BankAcctInfo_BankAcctFrom BankAcctInfo_SupTxDl BankAcctInfo_XferSrc BankAcctInfo_XferDest BankAcctInfo_MaturityDate BankAcctInfo_MaturityAmt BankAcctInfo_MinBalReq BankAcctInfo_AcctClassification BankAcctInfo_OverdraftLimit BankAcctInfo_SvcStatus].
  all: rewrite ?BankAcct_iso.
  all: reflexivity.
Qed.

(** signup.go:84-92 *)
Definition CCAcctInfo_fields : flds :=
  FCons [] (bs "CCACCTFROM") false CCAcct_ty
  (FCons [] (bs "SUPTXDL") false (TLeaf LBool)
  (FCons [] (bs "XFERSRC") false (TLeaf LBool)
  (FCons [] (bs "XFERDEST") false (TLeaf LBool)
  (FCons [] (bs "ACCTCLASSIFICATION") true (TLeaf (LEnum enum_acctClassification))
  (FCons [] (bs "SVCSTATUS") false (TLeaf (LEnum enum_svcStatus)) FNil))))).
Definition CCAcctInfo_ty : ty := TStruct (bs "CCACCTINFO") CCAcctInfo_fields.
Definition CCAcctInfo_to (r : CCAcctInfo) : interp CCAcctInfo_ty :=
  (CCAcct_to (CCAcctInfo_CCAcctFrom r), (CCAcctInfo_SupTxDl r, (CCAcctInfo_XferSrc r, (CCAcctInfo_XferDest r, (CCAcctInfo_AcctClassification r, (CCAcctInfo_SvcStatus r, tt)))))).
Definition CCAcctInfo_of (v : interp CCAcctInfo_ty) : CCAcctInfo :=
  let '(x0, (x1, (x2, (x3, (x4, (x5, tt)))))) := v in
  mkCCAcctInfo (CCAcct_of x0) x1 x2 x3 x4 x5.
Lemma CCAcctInfo_iso r : CCAcctInfo_of (CCAcctInfo_to r) = r.
Proof.
  destruct r as [f0 f1 f2 f3 f4 f5]; cbv beta iota delta [CCAcctInfo_of CCAcctInfo_to CCAcctInfo_CCAcctFrom CCAcctInfo_SupTxDl CCAcctInfo_XferSrc CCAcctInfo_XferDest CCAcctInfo_AcctClassification CCAcctInfo_SvcStatus].
  all: rewrite ?CCAcct_iso.
  all: reflexivity.
Qed.

(** signup.go:102-110 *)
Definition InvAcctInfo_fields : flds :=
  FCons [] (bs "INVACCTFROM") false InvAcct_ty
  (FCons [] (bs "USPRODUCTTYPE") false (TLeaf (LEnum enum_usProductType))
  (FCons [] (bs "CHECKING") false (TLeaf LBool)
  (FCons [] (bs "SVCSTATUS") false (TLeaf (LEnum enum_svcStatus))
  (FCons [] (bs "INVACCTTYPE") true (TLeaf (LEnum enum_holderType))
  (FCons [] (bs "OPTIONLEVEL") true (TLeaf LString) FNil))))).
Definition InvAcctInfo_ty : ty := TStruct (bs "INVACCTINFO") InvAcctInfo_fields.
Definition InvAcctInfo_to (r : InvAcctInfo) : interp InvAcctInfo_ty :=
  (InvAcct_to (InvAcctInfo_InvAcctFrom r), (InvAcctInfo_UsProductType r, (InvAcctInfo_Checking r, (InvAcctInfo_SvcStatus r, (InvAcctInfo_InvAcctType r, (InvAcctInfo_OptionLevel r, tt)))))).
Definition InvAcctInfo_of (v : interp InvAcctInfo_ty) : InvAcctInfo :=
  let '(x0, (x1, (x2, (x3, (x4, (x5, tt)))))) := v in
  mkInvAcctInfo (InvAcct_of x0) x1 x2 x3 x4 x5.
Lemma InvAcctInfo_iso r : InvAcctInfo_of (InvAcctInfo_to r) = r.
Proof.
  destruct r as [f0 f1 f2 f3 f4 f5]; cbv beta iota delta [InvAcctInfo_of InvAcctInfo_to InvAcctInfo_InvAcctFrom InvAcctInfo_UsProductType InvAcctInfo_Checking InvAcctInfo_SvcStatus InvAcctInfo_InvAcctType InvAcctInfo_OptionLevel].
  all: rewrite ?InvAcct_iso.
  all: reflexivity.
Qed.

(** signup.go:120-134 *)
Definition AcctInfo_fields : flds :=
  FCons [] (bs "NAME") true (TLeaf LString)
  (FCons [] (bs "DESC") true (TLeaf LString)
  (FCons [] (bs "PHONE") true (TLeaf LString)
  (FCons [bs "HOLDERINFO"] (bs "PRIMARYHOLDER") true HolderInfo_ty
  (FCons [bs "HOLDERINFO"] (bs "SECONDARYHOLDER") true HolderInfo_ty
  (FCons [] (bs "BANKACCTINFO") true (TPtr BankAcctInfo_ty)
  (FCons [] (bs "CCACCTINFO") true (TPtr CCAcctInfo_ty)
  (FCons [] (bs "INVACCTINFO") true (TPtr InvAcctInfo_ty) FNil))))))).
Definition AcctInfo_ty : ty := TStruct (bs "ACCTINFO") AcctInfo_fields.
Definition AcctInfo_to (r : AcctInfo) : interp AcctInfo_ty :=
  (AcctInfo_Name r, (AcctInfo_Desc r, (AcctInfo_Phone r, (HolderInfo_to (AcctInfo_PrimaryHolder r), (HolderInfo_to (AcctInfo_SecondaryHolder r), (option_map BankAcctInfo_to (AcctInfo_BankAcctInfo r), (option_map CCAcctInfo_to (AcctInfo_CCAcctInfo r), (option_map InvAcctInfo_to (AcctInfo_InvAcctInfo r), tt)))))))).
Definition AcctInfo_of (v : interp AcctInfo_ty) : AcctInfo :=
  let '(x0, (x1, (x2, (x3, (x4, (x5, (x6, (x7, tt)))))))) := v in
  mkAcctInfo x0 x1 x2 (HolderInfo_of x3) (HolderInfo_of x4) (option_map BankAcctInfo_of x5) (option_map CCAcctInfo_of x6) (option_map InvAcctInfo_of x7).
Lemma AcctInfo_iso r : AcctInfo_of (AcctInfo_to r) = r.
Proof.
  destruct r as [f0 f1 f2 f3 f4 f5 f6 f7]; cbv beta iota delta [AcctInfo_of AcctInfo_to AcctInfo_Name AcctInfo_Desc AcctInfo_Phone AcctInfo_PrimaryHolder AcctInfo_SecondaryHolder AcctInfo_BankAcctInfo AcctInfo_CCAcctInfo AcctInfo_InvAcctInfo].
  all: rewrite ?(option_map_iso _ _ BankAcctInfo_iso), ?(option_map_iso _ _ CCAcctInfo_iso), ?(option_map_iso _ _ InvAcctInfo_iso), ?BankAcctInfo_iso, ?CCAcctInfo_iso, ?HolderInfo_iso, ?InvAcctInfo_iso.
  all: reflexivity.
Qed.

(** signup.go:138-146 *)
Definition AcctInfoResponse_fields : flds :=
  FCons [] (bs "TRNUID") false (TLeaf LUID)
  (FCons [] (bs "STATUS") false Status_ty
  (FCons [] (bs "CLTCOOKIE") true (TLeaf LString)
  (FCons [bs "ACCTINFORS"] (bs "DTACCTUP") false (TLeaf LDate)
  (FCons [bs "ACCTINFORS"] (bs "ACCTINFO") true (TSlice AcctInfo_ty) FNil)))).
Definition AcctInfoResponse_ty : ty := TStruct (bs "ACCTINFOTRNRS") AcctInfoResponse_fields.
Definition AcctInfoResponse_to (r : AcctInfoResponse) : interp AcctInfoResponse_ty :=
  (AcctInfoResponse_TrnUID r, (Status_to (AcctInfoResponse_Status r), (AcctInfoResponse_CltCookie r, (AcctInfoResponse_DtAcctUp r, (map AcctInfo_to (AcctInfoResponse_AcctInfo r), tt))))).
Definition AcctInfoResponse_of (v : interp AcctInfoResponse_ty) : AcctInfoResponse :=
  let '(x0, (x1, (x2, (x3, (x4, tt))))) := v in
  mkAcctInfoResponse x0 (Status_of x1) x2 x3 (map AcctInfo_of x4).
Lemma AcctInfoResponse_iso r : AcctInfoResponse_of (AcctInfoResponse_to r) = r.
Proof.
  destruct r as [f0 f1 f2 f3 f4]; cbv beta iota delta [AcctInfoResponse_of AcctInfoResponse_to AcctInfoResponse_TrnUID AcctInfoResponse_Status AcctInfoResponse_CltCookie AcctInfoResponse_DtAcctUp AcctInfoResponse_AcctInfo].
  all: rewrite ?(map_iso _ _ AcctInfo_iso), ?AcctInfo_iso, ?Status_iso.
  all: reflexivity.
Qed.

(** bank.go:12-24 *)
Definition StatementRequest_fields : flds :=
  FCons [] (bs "TRNUID") false (TLeaf LUID)
  (FCons [] (bs "CLTCOOKIE") true (TLeaf LString)
  (FCons [] (bs "TAN") true (TLeaf LString)
  (FCons [bs "STMTRQ"] (bs "BANKACCTFROM") false BankAcct_ty
  (FCons [bs "STMTRQ"; bs "INCTRAN"] (bs "DTSTART") true (TPtr (TLeaf LDate))
  (FCons [bs "STMTRQ"; bs "INCTRAN"] (bs "DTEND") true (TPtr (TLeaf LDate))
  (FCons [bs "STMTRQ"; bs "INCTRAN"] (bs "INCLUDE") false (TLeaf LBool)
  (FCons [bs "STMTRQ"] (bs "INCLUDEPENDING") true (TLeaf LBool)
  (FCons [bs "STMTRQ"] (bs "INCTRANIMG") true (TLeaf LBool) FNil)))))))).
Definition StatementRequest_ty : ty := TStruct (bs "STMTTRNRQ") StatementRequest_fields.
Definition StatementRequest_to (r : StatementRequest) : interp StatementRequest_ty :=
  (StatementRequest_TrnUID r, (StatementRequest_CltCookie r, (StatementRequest_TAN r, (BankAcct_to (StatementRequest_BankAcctFrom r), (StatementRequest_DtStart r, (StatementRequest_DtEnd r, (StatementRequest_Include r, (StatementRequest_IncludePending r, (StatementRequest_IncTranImg r, tt))))))))).
Definition StatementRequest_of (v : interp StatementRequest_ty) : StatementRequest :=
  let '(x0, (x1, (x2, (x3, (x4, (x5, (x6, (x7, (x8, tt))))))))) := v in
  mkStatementRequest x0 x1 x2 (BankAcct_of x3) x4 x5 x6 x7 x8.
Lemma StatementRequest_iso r : StatementRequest_of (StatementRequest_to r) = r.
Proof.
  destruct r as [f0 f1 f2 f3 f4 f5 f6 f7 f8]; cbv beta iota delta [StatementRequest_of StatementRequest_to StatementRequest_TrnUID StatementRequest_CltCookie StatementRequest_TAN StatementRequest_BankAcctFrom StatementRequest_DtStart StatementRequest_DtEnd StatementRequest_Include StatementRequest_IncludePending StatementRequest_IncTranImg].
  all: rewrite ?BankAcct_iso.
  all: reflexivity.
Qed.

(** bank.go:53-64 *)
Definition Payee_fields : flds :=
  FCons [] (bs "NAME") false (TLeaf LString)
  (FCons [] (bs "ADDR1") false (TLeaf LString)
  (FCons [] (bs "ADDR2") true (TLeaf LString)
  (FCons [] (bs "ADDR3") true (TLeaf LString)
  (FCons [] (bs "CITY") false (TLeaf LString)
  (FCons [] (bs "STATE") false (TLeaf LString)
  (FCons [] (bs "POSTALCODE") false (TLeaf LString)
  (FCons [] (bs "COUNTRY") true (TLeaf LString)
  (FCons [] (bs "PHONE") false (TLeaf LString) FNil)))))))).
Definition Payee_ty : ty := TStruct (bs "PAYEE") Payee_fields.
Definition Payee_to (r : Payee) : interp Payee_ty :=
  (Payee_Name r, (Payee_Addr1 r, (Payee_Addr2 r, (Payee_Addr3 r, (Payee_City r, (Payee_State r, (Payee_PostalCode r, (Payee_Country r, (Payee_Phone r, tt))))))))).
Definition Payee_of (v : interp Payee_ty) : Payee :=
  let '(x0, (x1, (x2, (x3, (x4, (x5, (x6, (x7, (x8, tt))))))))) := v in
  mkPayee x0 x1 x2 x3 x4 x5 x6 x7 x8.
Lemma Payee_iso r : Payee_of (Payee_to r) = r.
Proof.
  destruct r as [f0 f1 f2 f3 f4 f5 f6 f7 f8]; cbv beta iota delta [Payee_of Payee_to Payee_Name Payee_Addr1 Payee_Addr2 Payee_Addr3 Payee_City Payee_State Payee_PostalCode Payee_Country Payee_Phone].
  all: reflexivity.
Qed.

(** bank.go:88-98 *)
Definition ImageData_fields : flds :=
  FCons [] (bs "IMAGETYPE") false (TLeaf (LEnum enum_imageType))
  (FCons [] (bs "IMAGEREF") false (TLeaf LString)
  (FCons [] (bs "IMAGEREFTYPE") false (TLeaf (LEnum enum_imageRefType))
  (FCons [] (bs "IMAGEDELAY") true (TLeaf LInt)
  (FCons [] (bs "DTIMAGEAVAIL") true (TPtr (TLeaf LDate))
  (FCons [] (bs "IMAGETTL") true (TLeaf LInt)
  (FCons [] (bs "CHECKSUP") true (TLeaf (LEnum enum_checkSup)) FNil)))))).
Definition ImageData_ty : ty := TStruct (bs "IMAGEDATA") ImageData_fields.
Definition ImageData_to (r : ImageData) : interp ImageData_ty :=
  (ImageData_ImageType r, (ImageData_ImageRef r, (ImageData_ImageRefType r, (ImageData_ImageDelay r, (ImageData_DtImageAvail r, (ImageData_ImageTTL r, (ImageData_CheckSup r, tt))))))).
Definition ImageData_of (v : interp ImageData_ty) : ImageData :=
  let '(x0, (x1, (x2, (x3, (x4, (x5, (x6, tt))))))) := v in
  mkImageData x0 x1 x2 x3 x4 x5 x6.
Lemma ImageData_iso r : ImageData_of (ImageData_to r) = r.
Proof.
  destruct r as [f0 f1 f2 f3 f4 f5 f6]; cbv beta iota delta [ImageData_of ImageData_to ImageData_ImageType ImageData_ImageRef ImageData_ImageRefType ImageData_ImageDelay ImageData_DtImageAvail ImageData_ImageTTL ImageData_CheckSup].
  all: reflexivity.
Qed.

(** bank.go:104-132 *)
Definition Transaction_fields : flds :=
  FCons [] (bs "TRNTYPE") false (TLeaf (LEnum enum_trnType))
  (FCons [] (bs "DTPOSTED") false (TLeaf LDate)
  (FCons [] (bs "DTUSER") true (TPtr (TLeaf LDate))
  (FCons [] (bs "DTAVAIL") true (TPtr (TLeaf LDate))
  (FCons [] (bs "TRNAMT") false (TLeaf LAmount)
  (FCons [] (bs "FITID") false (TLeaf LString)
  (FCons [] (bs "CORRECTFITID") true (TLeaf LString)
  (FCons [] (bs "CORRECTACTION") true (TLeaf (LEnum enum_correctAction))
  (FCons [] (bs "SRVRTID") true (TLeaf LString)
  (FCons [] (bs "CHECKNUM") true (TLeaf LString)
  (FCons [] (bs "REFNUM") true (TLeaf LString)
  (FCons [] (bs "SIC") true (TLeaf LInt)
  (FCons [] (bs "PAYEEID") true (TLeaf LString)
  (FCons [] (bs "NAME") true (TLeaf LString)
  (FCons [] (bs "PAYEE") true (TPtr Payee_ty)
  (FCons [] (bs "EXTDNAME") true (TLeaf LString)
  (FCons [] (bs "BANKACCTTO") true (TPtr BankAcct_ty)
  (FCons [] (bs "CCACCTTO") true (TPtr CCAcct_ty)
  (FCons [] (bs "MEMO") true (TLeaf LString)
  (FCons [] (bs "IMAGEDATA") true (TSlice ImageData_ty)
  (FCons [] (bs "CURRENCY") true (TPtr Currency_ty)
  (FCons [] (bs "ORIGCURRENCY") true (TPtr Currency_ty)
  (FCons [] (bs "INV401KSOURCE") true (TLeaf (LEnum enum_inv401kSource)) FNil)))))))))))))))))))))).
Definition Transaction_ty : ty := TStruct (bs "STMTTRN") Transaction_fields.
Definition Transaction_to (r : Transaction) : interp Transaction_ty :=
  (Transaction_TrnType r, (Transaction_DtPosted r, (Transaction_DtUser r, (Transaction_DtAvail r, (Transaction_TrnAmt r, (Transaction_FiTID r, (Transaction_CorrectFiTID r, (Transaction_CorrectAction r, (Transaction_SrvrTID r, (Transaction_CheckNum r, (Transaction_RefNum r, (Transaction_SIC r, (Transaction_PayeeID r, (Transaction_Name r, (option_map Payee_to (Transaction_Payee r), (Transaction_ExtdName r, (option_map BankAcct_to (Transaction_BankAcctTo r), (option_map CCAcct_to (Transaction_CCAcctTo r), (Transaction_Memo r, (map ImageData_to (Transaction_ImageData r), (option_map Currency_to (Transaction_Currency r), (option_map Currency_to (Transaction_OrigCurrency r), (Transaction_Inv401kSource r, tt))))))))))))))))))))))).
Definition Transaction_of (v : interp Transaction_ty) : Transaction :=
  let '(x0, (x1, (x2, (x3, (x4, (x5, (x6, (x7, (x8, (x9, (x10, (x11, (x12, (x13, (x14, (x15, (x16, (x17, (x18, (x19, (x20, (x21, (x22, tt))))))))))))))))))))))) := v in
  mkTransaction x0 x1 x2 x3 x4 x5 x6 x7 x8 x9 x10 x11 x12 x13 (option_map Payee_of x14) x15 (option_map BankAcct_of x16) (option_map CCAcct_of x17) x18 (map ImageData_of x19) (option_map Currency_of x20) (option_map Currency_of x21) x22.
Lemma Transaction_iso r : Transaction_of (Transaction_to r) = r.
Proof.
  destruct r as [f0 f1 f2 f3 f4 f5 f6 f7 f8 f9 f10 f11 f12 f13 f14 f15 f16 f17 f18 f19 f20 f21 f22]; cbv beta iota delta [Transaction_of Transaction_to Transaction_TrnType Transaction_DtPosted Transaction_DtUser Transaction_DtAvail Transaction_TrnAmt Transaction_FiTID Transaction_CorrectFiTID Transaction_CorrectAction Transaction_SrvrTID Transaction_CheckNum Transaction_RefNum Transaction_SIC Transaction_PayeeID Transaction_Name Transaction_Payee Transaction_ExtdName Transaction_BankAcctTo Transaction_CCAcctTo Transaction_Memo Transaction_ImageData Transaction_Currency Transaction_OrigCurrency Transaction_Inv401kSource].
  all: rewrite ?(map_iso _ _ ImageData_iso), ?(option_map_iso _ _ BankAcct_iso), ?(option_map_iso _ _ CCAcct_iso), ?(option_map_iso _ _ Currency_iso), ?(option_map_iso _ _ Payee_iso), ?BankAcct_iso, ?CCAcct_iso, ?Currency_iso, ?ImageData_iso, ?Payee_iso.
  all: reflexivity.
Qed.

(** bank.go:184-189 *)
Definition TransactionList_fields : flds :=
  FCons [] (bs "DTSTART") false (TLeaf LDate)
  (FCons [] (bs "DTEND") false (TLeaf LDate)
  (FCons [] (bs "STMTTRN") true (TSlice Transaction_ty) FNil)).
Definition TransactionList_ty : ty := TStruct (bs "BANKTRANLIST") TransactionList_fields.
Definition TransactionList_to (r : TransactionList) : interp TransactionList_ty :=
  (TransactionList_DtStart r, (TransactionList_DtEnd r, (map Transaction_to (TransactionList_Transactions r), tt))).
Definition TransactionList_of (v : interp TransactionList_ty) : TransactionList :=
  let '(x0, (x1, (x2, tt))) := v in
  mkTransactionList x0 x1 (map Transaction_of x2).
Lemma TransactionList_iso r : TransactionList_of (TransactionList_to r) = r.
Proof.
  destruct r as [f0 f1 f2]; cbv beta iota delta [TransactionList_of TransactionList_to TransactionList_DtStart TransactionList_DtEnd TransactionList_Transactions].
  all: rewrite ?(map_iso _ _ Transaction_iso), ?Transaction_iso.
  all: reflexivity.
Qed.

(** bank.go:211-226 *)
Definition PendingTransaction_fields : flds :=
  FCons [] (bs "TRNTYPE") false (TLeaf (LEnum enum_trnType))
  (FCons [] (bs "DTTRAN") false (TLeaf LDate)
  (FCons [] (bs "DTEXPIRE") true (TPtr (TLeaf LDate))
  (FCons [] (bs "TRNAMT") false (TLeaf LAmount)
  (FCons [] (bs "REFNUM") true (TLeaf LString)
  (FCons [] (bs "NAME") true (TLeaf LString)
  (FCons [] (bs "EXTDNAME") true (TLeaf LString)
  (FCons [] (bs "MEMO") true (TLeaf LString)
  (FCons [] (bs "IMAGEDATA") true (TSlice ImageData_ty)
  (FCons [] (bs "CURRENCY") true Currency_ty
  (FCons [] (bs "ORIGCURRENCY") true Currency_ty FNil)))))))))).
Definition PendingTransaction_ty : ty := TStruct (bs "STMTTRNP") PendingTransaction_fields.
Definition PendingTransaction_to (r : PendingTransaction) : interp PendingTransaction_ty :=
  (PendingTransaction_TrnType r, (PendingTransaction_DtTran r, (PendingTransaction_DtExpire r, (PendingTransaction_TrnAmt r, (PendingTransaction_RefNum r, (PendingTransaction_Name r, (PendingTransaction_ExtdName r, (PendingTransaction_Memo r, (map ImageData_to (PendingTransaction_ImageData r), (Currency_to (PendingTransaction_Currency r), (Currency_to (PendingTransaction_OrigCurrency r), tt))))))))))).
Definition PendingTransaction_of (v : interp PendingTransaction_ty) : PendingTransaction :=
  let '(x0, (x1, (x2, (x3, (x4, (x5, (x6, (x7, (x8, (x9, (x10, tt))))))))))) := v in
  mkPendingTransaction x0 x1 x2 x3 x4 x5 x6 x7 (map ImageData_of x8) (Currency_of x9) (Currency_of x10).
Lemma PendingTransaction_iso r : PendingTransaction_of (PendingTransaction_to r) = r.
Proof.
  destruct r as [f0 f1 f2 f3 f4 f5 f6 f7 f8 f9 f10]; cbv beta iota delta [PendingTransaction_of PendingTransaction_to PendingTransaction_TrnType PendingTransaction_DtTran PendingTransaction_DtExpire PendingTransaction_TrnAmt PendingTransaction_RefNum PendingTransaction_Name PendingTransaction_ExtdName PendingTransaction_Memo PendingTransaction_ImageData PendingTransaction_Currency PendingTransaction_OrigCurrency].
  all: rewrite ?(map_iso _ _ ImageData_iso), ?Currency_iso, ?ImageData_iso.
  all: reflexivity.
Qed.

(** bank.go:248-252 *)
Definition PendingTransactionList_fields : flds :=
  FCons [] (bs "DTASOF") false (TLeaf LDate)
  (FCons [] (bs "STMTTRNP") true (TSlice PendingTransaction_ty) FNil).
Definition PendingTransactionList_ty : ty := TStruct (bs "BANKTRANLISTP") PendingTransactionList_fields.
Definition PendingTransactionList_to (r : PendingTransactionList) : interp PendingTransactionList_ty :=
  (PendingTransactionList_DtAsOf r, (map PendingTransaction_to (PendingTransactionList_Transactions r), tt)).
Definition PendingTransactionList_of (v : interp PendingTransactionList_ty) : PendingTransactionList :=
  let '(x0, (x1, tt)) := v in
  mkPendingTransactionList x0 (map PendingTransaction_of x1).
Lemma PendingTransactionList_iso r : PendingTransactionList_of (PendingTransactionList_to r) = r.
Proof.
  destruct r as [f0 f1]; cbv beta iota delta [PendingTransactionList_of PendingTransactionList_to PendingTransactionList_DtAsOf PendingTransactionList_Transactions].
  all: rewrite ?(map_iso _ _ PendingTransaction_iso), ?PendingTransaction_iso.
  all: reflexivity.
Qed.

(** bank.go:270-284 *)
Definition Balance_fields : flds :=
  FCons [] (bs "NAME") false (TLeaf LString)
  (FCons [] (bs "DESC") false (TLeaf LString)
  (FCons [] (bs "BALTYPE") false (TLeaf (LEnum enum_balType))
  (FCons [] (bs "VALUE") false (TLeaf LAmount)
  (FCons [] (bs "DTASOF") true (TPtr (TLeaf LDate))
  (FCons [] (bs "CURRENCY") true (TPtr Currency_ty) FNil))))).
Definition Balance_ty : ty := TStruct (bs "BAL") Balance_fields.
Definition Balance_to (r : Balance) : interp Balance_ty :=
  (Balance_Name r, (Balance_Desc r, (Balance_BalType r, (Balance_Value r, (Balance_DtAsOf r, (option_map Currency_to (Balance_Currency r), tt)))))).
Definition Balance_of (v : interp Balance_ty) : Balance :=
  let '(x0, (x1, (x2, (x3, (x4, (x5, tt)))))) := v in
  mkBalance x0 x1 x2 x3 x4 (option_map Currency_of x5).
Lemma Balance_iso r : Balance_of (Balance_to r) = r.
Proof.
  destruct r as [f0 f1 f2 f3 f4 f5]; cbv beta iota delta [Balance_of Balance_to Balance_Name Balance_Desc Balance_BalType Balance_Value Balance_DtAsOf Balance_Currency].
  all: rewrite ?(option_map_iso _ _ Currency_iso), ?Currency_iso.
  all: reflexivity.
Qed.

(** bank.go:300-318 *)
Definition StatementResponse_fields : flds :=
  FCons [] (bs "TRNUID") false (TLeaf LUID)
  (FCons [] (bs "STATUS") false Status_ty
  (FCons [] (bs "CLTCOOKIE") true (TLeaf LString)
  (FCons [bs "STMTRS"] (bs "CURDEF") false (TLeaf LCurr)
  (FCons [bs "STMTRS"] (bs "BANKACCTFROM") false BankAcct_ty
  (FCons [bs "STMTRS"] (bs "BANKTRANLIST") true (TPtr TransactionList_ty)
  (FCons [bs "STMTRS"] (bs "BANKTRANLISTP") true (TPtr PendingTransactionList_ty)
  (FCons [bs "STMTRS"; bs "LEDGERBAL"] (bs "BALAMT") false (TLeaf LAmount)
  (FCons [bs "STMTRS"; bs "LEDGERBAL"] (bs "DTASOF") false (TLeaf LDate)
  (FCons [bs "STMTRS"; bs "AVAILBAL"] (bs "BALAMT") true (TPtr (TLeaf LAmount))
  (FCons [bs "STMTRS"; bs "AVAILBAL"] (bs "DTASOF") true (TPtr (TLeaf LDate))
  (FCons [bs "STMTRS"] (bs "CASHADVBALAMT") true (TPtr (TLeaf LAmount))
  (FCons [bs "STMTRS"] (bs "INTRATE") true (TPtr (TLeaf LAmount))
  (FCons [bs "STMTRS"; bs "BALLIST"] (bs "BAL") true (TSlice Balance_ty)
  (FCons [bs "STMTRS"] (bs "MKTGINFO") true (TLeaf LString) FNil)))))))))))))).
Definition StatementResponse_ty : ty := TStruct (bs "STMTTRNRS") StatementResponse_fields.
Definition StatementResponse_to (r : StatementResponse) : interp StatementResponse_ty :=
  (StatementResponse_TrnUID r, (Status_to (StatementResponse_Status r), (StatementResponse_CltCookie r, (StatementResponse_CurDef r, (BankAcct_to (StatementResponse_BankAcctFrom r), (option_map TransactionList_to (StatementResponse_BankTranList r), (option_map PendingTransactionList_to (StatementResponse_BankTranListP r), (StatementResponse_BalAmt r, (StatementResponse_DtAsOf r, (StatementResponse_AvailBalAmt r, (StatementResponse_AvailDtAsOf r, (StatementResponse_CashAdvBalAmt r, (StatementResponse_IntRate r, (map Balance_to (StatementResponse_BalList r), (StatementResponse_MktgInfo r, tt))))))))))))))).
Definition StatementResponse_of (v : interp StatementResponse_ty) : StatementResponse :=
  let '(x0, (x1, (x2, (x3, (x4, (x5, (x6, (x7, (x8, (x9, (x10, (x11, (x12, (x13, (x14, tt))))))))))))))) := v in
  mkStatementResponse x0 (Status_of x1) x2 x3 (BankAcct_of x4) (option_map TransactionList_of x5) (option_map PendingTransactionList_of x6) x7 x8 x9 x10 x11 x12 (map Balance_of x13) x14.
Lemma StatementResponse_iso r : StatementResponse_of (StatementResponse_to r) = r.
Proof.
  destruct r as [f0 f1 f2 f3 f4 f5 f6 f7 f8 f9 f10 f11 f12 f13 f14]; cbv beta iota delta [StatementResponse_of StatementResponse_to StatementResponse_TrnUID StatementResponse_Status StatementResponse_CltCookie StatementResponse_CurDef StatementResponse_BankAcctFrom StatementResponse_BankTranList StatementResponse_BankTranListP StatementResponse_BalAmt StatementResponse_DtAsOf StatementResponse_AvailBalAmt StatementResponse_AvailDtAsOf StatementResponse_CashAdvBalAmt StatementResponse_IntRate StatementResponse_BalList StatementResponse_MktgInfo].
  all: rewrite ?(map_iso _ _ Balance_iso), ?(option_map_iso _ _ PendingTransactionList_iso), ?(option_map_iso _ _ TransactionList_iso), ?Balance_iso, ?BankAcct_iso, ?PendingTransactionList_iso, ?Status_iso, ?TransactionList_iso.
  all: reflexivity.
Qed.

(** creditcard.go:10-22 *)
Definition CCStatementRequest_fields : flds :=
  FCons [] (bs "TRNUID") false (TLeaf LUID)
  (FCons [] (bs "CLTCOOKIE") true (TLeaf LString)
  (FCons [] (bs "TAN") true (TLeaf LString)
  (FCons [bs "CCSTMTRQ"] (bs "CCACCTFROM") false CCAcct_ty
  (FCons [bs "CCSTMTRQ"; bs "INCTRAN"] (bs "DTSTART") true (TPtr (TLeaf LDate))
  (FCons [bs "CCSTMTRQ"; bs "INCTRAN"] (bs "DTEND") true (TPtr (TLeaf LDate))
  (FCons [bs "CCSTMTRQ"; bs "INCTRAN"] (bs "INCLUDE") false (TLeaf LBool)
  (FCons [bs "CCSTMTRQ"] (bs "INCLUDEPENDING") true (TLeaf LBool)
  (FCons [bs "CCSTMTRQ"] (bs "INCTRANIMG") true (TLeaf LBool) FNil)))))))).
Definition CCStatementRequest_ty : ty := TStruct (bs "CCSTMTTRNRQ") CCStatementRequest_fields.
Definition CCStatementRequest_to (r : CCStatementRequest) : interp CCStatementRequest_ty :=
  (CCStatementRequest_TrnUID r, (CCStatementRequest_CltCookie r, (CCStatementRequest_TAN r, (CCAcct_to (CCStatementRequest_CCAcctFrom r), (CCStatementRequest_DtStart r, (CCStatementRequest_DtEnd r, (CCStatementRequest_Include r, (CCStatementRequest_IncludePending r, (CCStatementRequest_IncTranImg r, tt))))))))).
Definition CCStatementRequest_of (v : interp CCStatementRequest_ty) : CCStatementRequest :=
  let '(x0, (x1, (x2, (x3, (x4, (x5, (x6, (x7, (x8, tt))))))))) := v in
  mkCCStatementRequest x0 x1 x2 (CCAcct_of x3) x4 x5 x6 x7 x8.
Lemma CCStatementRequest_iso r : CCStatementRequest_of (CCStatementRequest_to r) = r.
Proof.
  destruct r as [f0 f1 f2 f3 f4 f5 f6 f7 f8]; cbv beta iota delta [CCStatementRequest_of CCStatementRequest_to CCStatementRequest_TrnUID CCStatementRequest_CltCookie CCStatementRequest_TAN CCStatementRequest_CCAcctFrom CCStatementRequest_DtStart CCStatementRequest_DtEnd CCStatementRequest_Include CCStatementRequest_IncludePending CCStatementRequest_IncTranImg].
  all: rewrite ?CCAcct_iso.
  all: reflexivity.
Qed.

(** creditcard.go:48-71 *)
Definition CCStatementResponse_fields : flds :=
  FCons [] (bs "TRNUID") false (TLeaf LUID)
  (FCons [] (bs "STATUS") false Status_ty
  (FCons [] (bs "CLTCOOKIE") true (TLeaf LString)
  (FCons [bs "CCSTMTRS"] (bs "CURDEF") false (TLeaf LCurr)
  (FCons [bs "CCSTMTRS"] (bs "CCACCTFROM") false CCAcct_ty
  (FCons [bs "CCSTMTRS"] (bs "BANKTRANLIST") true (TPtr TransactionList_ty)
  (FCons [bs "CCSTMTRS"; bs "LEDGERBAL"] (bs "BALAMT") false (TLeaf LAmount)
  (FCons [bs "CCSTMTRS"; bs "LEDGERBAL"] (bs "DTASOF") false (TLeaf LDate)
  (FCons [bs "CCSTMTRS"; bs "AVAILBAL"] (bs "BALAMT") true (TPtr (TLeaf LAmount))
  (FCons [bs "CCSTMTRS"; bs "AVAILBAL"] (bs "DTASOF") true (TPtr (TLeaf LDate))
  (FCons [bs "CCSTMTRS"] (bs "CASHADVBALAMT") true (TLeaf LAmount)
  (FCons [bs "CCSTMTRS"] (bs "INTRATEPURCH") true (TLeaf LAmount)
  (FCons [bs "CCSTMTRS"] (bs "INTRATECASH") true (TLeaf LAmount)
  (FCons [bs "CCSTMTRS"] (bs "INTRATEXFER") true (TLeaf LAmount)
  (FCons [bs "CCSTMTRS"; bs "REWARDINFO"] (bs "NAME") true (TLeaf LString)
  (FCons [bs "CCSTMTRS"; bs "REWARDINFO"] (bs "REWARDBAL") true (TLeaf LAmount)
  (FCons [bs "CCSTMTRS"; bs "REWARDINFO"] (bs "REWARDEARNED") true (TLeaf LAmount)
  (FCons [bs "CCSTMTRS"; bs "BALLIST"] (bs "BAL") true (TSlice Balance_ty)
  (FCons [bs "CCSTMTRS"] (bs "MKTGINFO") true (TLeaf LString) FNil)))))))))))))))))).
Definition CCStatementResponse_ty : ty := TStruct (bs "CCSTMTTRNRS") CCStatementResponse_fields.
Definition CCStatementResponse_to (r : CCStatementResponse) : interp CCStatementResponse_ty :=
  (CCStatementResponse_TrnUID r, (Status_to (CCStatementResponse_Status r), (CCStatementResponse_CltCookie r, (CCStatementResponse_CurDef r, (CCAcct_to (CCStatementResponse_CCAcctFrom r), (option_map TransactionList_to (CCStatementResponse_BankTranList r), (CCStatementResponse_BalAmt r, (CCStatementResponse_DtAsOf r, (CCStatementResponse_AvailBalAmt r, (CCStatementResponse_AvailDtAsOf r, (CCStatementResponse_CashAdvBalAmt r, (CCStatementResponse_IntRatePurch r, (CCStatementResponse_IntRateCash r, (CCStatementResponse_IntRateXfer r, (CCStatementResponse_RewardName r, (CCStatementResponse_RewardBal r, (CCStatementResponse_RewardEarned r, (map Balance_to (CCStatementResponse_BalList r), (CCStatementResponse_MktgInfo r, tt))))))))))))))))))).
Definition CCStatementResponse_of (v : interp CCStatementResponse_ty) : CCStatementResponse :=
  let '(x0, (x1, (x2, (x3, (x4, (x5, (x6, (x7, (x8, (x9, (x10, (x11, (x12, (x13, (x14, (x15, (x16, (x17, (x18, tt))))))))))))))))))) := v in
  mkCCStatementResponse x0 (Status_of x1) x2 x3 (CCAcct_of x4) (option_map TransactionList_of x5) x6 x7 x8 x9 x10 x11 x12 x13 x14 x15 x16 (map Balance_of x17) x18.
Lemma CCStatementResponse_iso r : CCStatementResponse_of (CCStatementResponse_to r) = r.
Proof.
  destruct r as [f0 f1 f2 f3 f4 f5 f6 f7 f8 f9 f10 f11 f12 f13 f14 f15 f16 f17 f18]; cbv beta iota delta [CCStatementResponse_of CCStatementResponse_to CCStatementResponse_TrnUID CCStatementResponse_Status CCStatementResponse_CltCookie CCStatementResponse_CurDef CCStatementResponse_CCAcctFrom CCStatementResponse_BankTranList CCStatementResponse_BalAmt CCStatementResponse_DtAsOf CCStatementResponse_AvailBalAmt CCStatementResponse_AvailDtAsOf CCStatementResponse_CashAdvBalAmt CCStatementResponse_IntRatePurch CCStatementResponse_IntRateCash CCStatementResponse_IntRateXfer CCStatementResponse_RewardName CCStatementResponse_RewardBal CCStatementResponse_RewardEarned CCStatementResponse_BalList CCStatementResponse_MktgInfo].
  all: rewrite ?(map_iso _ _ Balance_iso), ?(option_map_iso _ _ TransactionList_iso), ?Balance_iso, ?CCAcct_iso, ?Status_iso, ?TransactionList_iso.
  all: reflexivity.
Qed.

(** invstmt.go:11-28 *)
Definition InvStatementRequest_fields : flds :=
  FCons [] (bs "TRNUID") false (TLeaf LUID)
  (FCons [] (bs "CLTCOOKIE") true (TLeaf LString)
  (FCons [] (bs "TAN") true (TLeaf LString)
  (FCons [bs "INVSTMTRQ"] (bs "INVACCTFROM") false InvAcct_ty
  (FCons [bs "INVSTMTRQ"; bs "INCTRAN"] (bs "DTSTART") true (TPtr (TLeaf LDate))
  (FCons [bs "INVSTMTRQ"; bs "INCTRAN"] (bs "DTEND") true (TPtr (TLeaf LDate))
  (FCons [bs "INVSTMTRQ"; bs "INCTRAN"] (bs "INCLUDE") false (TLeaf LBool)
  (FCons [bs "INVSTMTRQ"] (bs "INCOO") false (TLeaf LBool)
  (FCons [bs "INVSTMTRQ"; bs "INCPOS"] (bs "DTASOF") true (TPtr (TLeaf LDate))
  (FCons [bs "INVSTMTRQ"; bs "INCPOS"] (bs "INCLUDE") false (TLeaf LBool)
  (FCons [bs "INVSTMTRQ"] (bs "INCBAL") false (TLeaf LBool)
  (FCons [bs "INVSTMTRQ"] (bs "INC401K") true (TLeaf LBool)
  (FCons [bs "INVSTMTRQ"] (bs "INC401KBAL") true (TLeaf LBool)
  (FCons [bs "INVSTMTRQ"] (bs "INCTRANIMAGE") true (TLeaf LBool) FNil))))))))))))).
Definition InvStatementRequest_ty : ty := TStruct (bs "INVSTMTTRNRQ") InvStatementRequest_fields.
Definition InvStatementRequest_to (r : InvStatementRequest) : interp InvStatementRequest_ty :=
  (InvStatementRequest_TrnUID r, (InvStatementRequest_CltCookie r, (InvStatementRequest_TAN r, (InvAcct_to (InvStatementRequest_InvAcctFrom r), (InvStatementRequest_DtStart r, (InvStatementRequest_DtEnd r, (InvStatementRequest_Include r, (InvStatementRequest_IncludeOO r, (InvStatementRequest_PosDtAsOf r, (InvStatementRequest_IncludePos r, (InvStatementRequest_IncludeBalance r, (InvStatementRequest_Include401K r, (InvStatementRequest_Include401KBal r, (InvStatementRequest_IncludeTranImage r, tt)))))))))))))).
Definition InvStatementRequest_of (v : interp InvStatementRequest_ty) : InvStatementRequest :=
  let '(x0, (x1, (x2, (x3, (x4, (x5, (x6, (x7, (x8, (x9, (x10, (x11, (x12, (x13, tt)))))))))))))) := v in
  mkInvStatementRequest x0 x1 x2 (InvAcct_of x3) x4 x5 x6 x7 x8 x9 x10 x11 x12 x13.
Lemma InvStatementRequest_iso r : InvStatementRequest_of (InvStatementRequest_to r) = r.
Proof.
  destruct r as [f0 f1 f2 f3 f4 f5 f6 f7 f8 f9 f10 f11 f12 f13]; cbv beta iota delta [InvStatementRequest_of InvStatementRequest_to InvStatementRequest_TrnUID InvStatementRequest_CltCookie InvStatementRequest_TAN InvStatementRequest_InvAcctFrom InvStatementRequest_DtStart InvStatementRequest_DtEnd InvStatementRequest_Include InvStatementRequest_IncludeOO InvStatementRequest_PosDtAsOf InvStatementRequest_IncludePos InvStatementRequest_IncludeBalance InvStatementRequest_Include401K InvStatementRequest_Include401KBal InvStatementRequest_IncludeTranImage].
  all: rewrite ?InvAcct_iso.
  all: reflexivity.
Qed.

(** invstmt.go:54-62 *)
Definition InvTran_fields : flds :=
  FCons [] (bs "FITID") false (TLeaf LString)
  (FCons [] (bs "SRVRTID") true (TLeaf LString)
  (FCons [] (bs "DTTRADE") false (TLeaf LDate)
  (FCons [] (bs "DTSETTLE") true (TPtr (TLeaf LDate))
  (FCons [] (bs "REVERSALFITID") true (TLeaf LString)
  (FCons [] (bs "MEMO") true (TLeaf LString) FNil))))).
Definition InvTran_ty : ty := TStruct (bs "INVTRAN") InvTran_fields.
Definition InvTran_to (r : InvTran) : interp InvTran_ty :=
  (InvTran_FiTID r, (InvTran_SrvrTID r, (InvTran_DtTrade r, (InvTran_DtSettle r, (InvTran_ReversalFiTID r, (InvTran_Memo r, tt)))))).
Definition InvTran_of (v : interp InvTran_ty) : InvTran :=
  let '(x0, (x1, (x2, (x3, (x4, (x5, tt)))))) := v in
  mkInvTran x0 x1 x2 x3 x4 x5.
Lemma InvTran_iso r : InvTran_of (InvTran_to r) = r.
Proof.
  destruct r as [f0 f1 f2 f3 f4 f5]; cbv beta iota delta [InvTran_of InvTran_to InvTran_FiTID InvTran_SrvrTID InvTran_DtTrade InvTran_DtSettle InvTran_ReversalFiTID InvTran_Memo].
  all: reflexivity.
Qed.

(** invstmt.go:66-91 *)
Definition InvBuy_fields : flds :=
  FCons [] (bs "INVTRAN") false InvTran_ty
  (FCons [] (bs "SECID") false SecurityID_ty
  (FCons [] (bs "UNITS") false (TLeaf LAmount)
  (FCons [] (bs "UNITPRICE") false (TLeaf LAmount)
  (FCons [] (bs "MARKUP") true (TLeaf LAmount)
  (FCons [] (bs "COMMISSION") true (TLeaf LAmount)
  (FCons [] (bs "TAXES") true (TLeaf LAmount)
  (FCons [] (bs "FEES") true (TLeaf LAmount)
  (FCons [] (bs "LOAD") true (TLeaf LAmount)
  (FCons [] (bs "TOTAL") false (TLeaf LAmount)
  (FCons [] (bs "CURRENCY") true Currency_ty
  (FCons [] (bs "ORIGCURRENCY") true Currency_ty
  (FCons [] (bs "SUBACCTSEC") false (TLeaf (LEnum enum_subAcctType))
  (FCons [] (bs "SUBACCTFUND") false (TLeaf (LEnum enum_subAcctType))
  (FCons [] (bs "LOANID") true (TLeaf LString)
  (FCons [] (bs "LOANPRINCIPAL") true (TLeaf LAmount)
  (FCons [] (bs "LOANINTEREST") true (TLeaf LAmount)
  (FCons [] (bs "INV401KSOURCE") true (TLeaf (LEnum enum_inv401kSource))
  (FCons [] (bs "DTPAYROLL") true (TPtr (TLeaf LDate))
  (FCons [] (bs "PRIORYEARCONTRIB") true (TLeaf LBool) FNil))))))))))))))))))).
Definition InvBuy_ty : ty := TStruct (bs "INVBUY") InvBuy_fields.
Definition InvBuy_to (r : InvBuy) : interp InvBuy_ty :=
  (InvTran_to (InvBuy_InvTran r), (SecurityID_to (InvBuy_SecID r), (InvBuy_Units r, (InvBuy_UnitPrice r, (InvBuy_Markup r, (InvBuy_Commission r, (InvBuy_Taxes r, (InvBuy_Fees r, (InvBuy_Load r, (InvBuy_Total r, (Currency_to (InvBuy_Currency r), (Currency_to (InvBuy_OrigCurrency r), (InvBuy_SubAcctSec r, (InvBuy_SubAcctFund r, (InvBuy_LoanID r, (InvBuy_LoanPrincipal r, (InvBuy_LoanInterest r, (InvBuy_Inv401kSource r, (InvBuy_DtPayroll r, (InvBuy_PriorYearContrib r, tt)))))))))))))))))))).
Definition InvBuy_of (v : interp InvBuy_ty) : InvBuy :=
  let '(x0, (x1, (x2, (x3, (x4, (x5, (x6, (x7, (x8, (x9, (x10, (x11, (x12, (x13, (x14, (x15, (x16, (x17, (x18, (x19, tt)))))))))))))))))))) := v in
  mkInvBuy (InvTran_of x0) (SecurityID_of x1) x2 x3 x4 x5 x6 x7 x8 x9 (Currency_of x10) (Currency_of x11) x12 x13 x14 x15 x16 x17 x18 x19.
Lemma InvBuy_iso r : InvBuy_of (InvBuy_to r) = r.
Proof.
  destruct r as [f0 f1 f2 f3 f4 f5 f6 f7 f8 f9 f10 f11 f12 f13 f14 f15 f16 f17 f18 f19]; cbv beta iota delta [InvBuy_of InvBuy_to InvBuy_InvTran InvBuy_SecID InvBuy_Units InvBuy_UnitPrice InvBuy_Markup InvBuy_Commission InvBuy_Taxes InvBuy_Fees InvBuy_Load InvBuy_Total InvBuy_Currency InvBuy_OrigCurrency InvBuy_SubAcctSec InvBuy_SubAcctFund InvBuy_LoanID InvBuy_LoanPrincipal InvBuy_LoanInterest InvBuy_Inv401kSource InvBuy_DtPayroll InvBuy_PriorYearContrib].
  all: rewrite ?Currency_iso, ?InvTran_iso, ?SecurityID_iso.
  all: reflexivity.
Qed.

(** invstmt.go:95-120 *)
Definition InvSell_fields : flds :=
  FCons [] (bs "INVTRAN") false InvTran_ty
  (FCons [] (bs "SECID") false SecurityID_ty
  (FCons [] (bs "UNITS") false (TLeaf LAmount)
  (FCons [] (bs "UNITPRICE") false (TLeaf LAmount)
  (FCons [] (bs "MARKDOWN") true (TLeaf LAmount)
  (FCons [] (bs "COMMISSION") true (TLeaf LAmount)
  (FCons [] (bs "TAXES") true (TLeaf LAmount)
  (FCons [] (bs "FEES") true (TLeaf LAmount)
  (FCons [] (bs "LOAD") true (TLeaf LAmount)
  (FCons [] (bs "WITHHOLDING") true (TLeaf LAmount)
  (FCons [] (bs "TAXEXEMPT") true (TLeaf LBool)
  (FCons [] (bs "TOTAL") false (TLeaf LAmount)
  (FCons [] (bs "GAIN") true (TLeaf LAmount)
  (FCons [] (bs "CURRENCY") true Currency_ty
  (FCons [] (bs "ORIGCURRENCY") true Currency_ty
  (FCons [] (bs "SUBACCTSEC") false (TLeaf (LEnum enum_subAcctType))
  (FCons [] (bs "SUBACCTFUND") false (TLeaf (LEnum enum_subAcctType))
  (FCons [] (bs "LOANID") true (TLeaf LString)
  (FCons [] (bs "STATEWITHHOLDING") true (TLeaf LAmount)
  (FCons [] (bs "PENALTY") true (TLeaf LAmount)
  (FCons [] (bs "INV401KSOURCE") true (TLeaf (LEnum enum_inv401kSource)) FNil)))))))))))))))))))).
Definition InvSell_ty : ty := TStruct (bs "INVSELL") InvSell_fields.
Definition InvSell_to (r : InvSell) : interp InvSell_ty :=
  (InvTran_to (InvSell_InvTran r), (SecurityID_to (InvSell_SecID r), (InvSell_Units r, (InvSell_UnitPrice r, (InvSell_Markdown r, (InvSell_Commission r, (InvSell_Taxes r, (InvSell_Fees r, (InvSell_Load r, (InvSell_Withholding r, (InvSell_TaxExempt r, (InvSell_Total r, (InvSell_Gain r, (Currency_to (InvSell_Currency r), (Currency_to (InvSell_OrigCurrency r), (InvSell_SubAcctSec r, (InvSell_SubAcctFund r, (InvSell_LoanID r, (InvSell_StateWithholding r, (InvSell_Penalty r, (InvSell_Inv401kSource r, tt))))))))))))))))))))).
Definition InvSell_of (v : interp InvSell_ty) : InvSell :=
  let '(x0, (x1, (x2, (x3, (x4, (x5, (x6, (x7, (x8, (x9, (x10, (x11, (x12, (x13, (x14, (x15, (x16, (x17, (x18, (x19, (x20, tt))))))))))))))))))))) := v in
  mkInvSell (InvTran_of x0) (SecurityID_of x1) x2 x3 x4 x5 x6 x7 x8 x9 x10 x11 x12 (Currency_of x13) (Currency_of x14) x15 x16 x17 x18 x19 x20.
Lemma InvSell_iso r : InvSell_of (InvSell_to r) = r.
Proof.
  destruct r as [f0 f1 f2 f3 f4 f5 f6 f7 f8 f9 f10 f11 f12 f13 f14 f15 f16 f17 f18 f19 f20]; cbv beta iota delta [InvSell_of InvSell_to InvSell_InvTran InvSell_SecID InvSell_Units InvSell_UnitPrice InvSell_Markdown InvSell_Commission InvSell_Taxes InvSell_Fees InvSell_Load InvSell_Withholding InvSell_TaxExempt InvSell_Total InvSell_Gain InvSell_Currency InvSell_OrigCurrency InvSell_SubAcctSec InvSell_SubAcctFund InvSell_LoanID InvSell_StateWithholding InvSell_Penalty InvSell_Inv401kSource].
  all: rewrite ?Currency_iso, ?InvTran_iso, ?SecurityID_iso.
  all: reflexivity.
Qed.

(** invstmt.go:123-127 *)
Definition BuyDebt_fields : flds :=
  FCons [] (bs "INVBUY") false InvBuy_ty
  (FCons [] (bs "ACCRDINT") true (TLeaf LAmount) FNil).
Definition BuyDebt_ty : ty := TStruct (bs "BUYDEBT") BuyDebt_fields.
Definition BuyDebt_to (r : BuyDebt) : interp BuyDebt_ty :=
  (InvBuy_to (BuyDebt_InvBuy r), (BuyDebt_AccrdInt r, tt)).
Definition BuyDebt_of (v : interp BuyDebt_ty) : BuyDebt :=
  let '(x0, (x1, tt)) := v in
  mkBuyDebt (InvBuy_of x0) x1.
Lemma BuyDebt_iso r : BuyDebt_of (BuyDebt_to r) = r.
Proof.
  destruct r as [f0 f1]; cbv beta iota delta [BuyDebt_of BuyDebt_to BuyDebt_InvBuy BuyDebt_AccrdInt].
  all: rewrite ?InvBuy_iso.
  all: reflexivity.
Qed.

(** invstmt.go:139-144 *)
Definition BuyMF_fields : flds :=
  FCons [] (bs "INVBUY") false InvBuy_ty
  (FCons [] (bs "BUYTYPE") false (TLeaf (LEnum enum_buyType))
  (FCons [] (bs "RELFITID") true (TLeaf LString) FNil)).
Definition BuyMF_ty : ty := TStruct (bs "BUYMF") BuyMF_fields.
Definition BuyMF_to (r : BuyMF) : interp BuyMF_ty :=
  (InvBuy_to (BuyMF_InvBuy r), (BuyMF_BuyType r, (BuyMF_RelFiTID r, tt))).
Definition BuyMF_of (v : interp BuyMF_ty) : BuyMF :=
  let '(x0, (x1, (x2, tt))) := v in
  mkBuyMF (InvBuy_of x0) x1 x2.
Lemma BuyMF_iso r : BuyMF_of (BuyMF_to r) = r.
Proof.
  destruct r as [f0 f1 f2]; cbv beta iota delta [BuyMF_of BuyMF_to BuyMF_InvBuy BuyMF_BuyType BuyMF_RelFiTID].
  all: rewrite ?InvBuy_iso.
  all: reflexivity.
Qed.

(** invstmt.go:156-161 *)
Definition BuyOpt_fields : flds :=
  FCons [] (bs "INVBUY") false InvBuy_ty
  (FCons [] (bs "OPTBUYTYPE") false (TLeaf (LEnum enum_optBuyType))
  (FCons [] (bs "SHPERCTRCT") false (TLeaf LInt) FNil)).
Definition BuyOpt_ty : ty := TStruct (bs "BUYOPT") BuyOpt_fields.
Definition BuyOpt_to (r : BuyOpt) : interp BuyOpt_ty :=
  (InvBuy_to (BuyOpt_InvBuy r), (BuyOpt_OptBuyType r, (BuyOpt_ShPerCtrct r, tt))).
Definition BuyOpt_of (v : interp BuyOpt_ty) : BuyOpt :=
  let '(x0, (x1, (x2, tt))) := v in
  mkBuyOpt (InvBuy_of x0) x1 x2.
Lemma BuyOpt_iso r : BuyOpt_of (BuyOpt_to r) = r.
Proof.
  destruct r as [f0 f1 f2]; cbv beta iota delta [BuyOpt_of BuyOpt_to BuyOpt_InvBuy BuyOpt_OptBuyType BuyOpt_ShPerCtrct].
  all: rewrite ?InvBuy_iso.
  all: reflexivity.
Qed.

(** invstmt.go:174-177 *)
Definition BuyOther_fields : flds :=
  FCons [] (bs "INVBUY") false InvBuy_ty FNil.
Definition BuyOther_ty : ty := TStruct (bs "BUYOTHER") BuyOther_fields.
Definition BuyOther_to (r : BuyOther) : interp BuyOther_ty :=
  (InvBuy_to (BuyOther_InvBuy r), tt).
Definition BuyOther_of (v : interp BuyOther_ty) : BuyOther :=
  let '(x0, tt) := v in
  mkBuyOther (InvBuy_of x0).
Lemma BuyOther_iso r : BuyOther_of (BuyOther_to r) = r.
Proof.
  destruct r as [f0]; cbv beta iota delta [BuyOther_of BuyOther_to BuyOther_InvBuy].
  all: rewrite ?InvBuy_iso.
  all: reflexivity.
Qed.

(** invstmt.go:189-193 *)
Definition BuyStock_fields : flds :=
  FCons [] (bs "INVBUY") false InvBuy_ty
  (FCons [] (bs "BUYTYPE") false (TLeaf (LEnum enum_buyType)) FNil).
Definition BuyStock_ty : ty := TStruct (bs "BUYSTOCK") BuyStock_fields.
Definition BuyStock_to (r : BuyStock) : interp BuyStock_ty :=
  (InvBuy_to (BuyStock_InvBuy r), (BuyStock_BuyType r, tt)).
Definition BuyStock_of (v : interp BuyStock_ty) : BuyStock :=
  let '(x0, (x1, tt)) := v in
  mkBuyStock (InvBuy_of x0) x1.
Lemma BuyStock_iso r : BuyStock_of (BuyStock_to r) = r.
Proof.
  destruct r as [f0 f1]; cbv beta iota delta [BuyStock_of BuyStock_to BuyStock_InvBuy BuyStock_BuyType].
  all: rewrite ?InvBuy_iso.
  all: reflexivity.
Qed.

(** invstmt.go:205-215 *)
Definition ClosureOpt_fields : flds :=
  FCons [] (bs "INVTRAN") false InvTran_ty
  (FCons [] (bs "SECID") false SecurityID_ty
  (FCons [] (bs "OPTACTION") false (TLeaf (LEnum enum_optAction))
  (FCons [] (bs "UNITS") false (TLeaf LAmount)
  (FCons [] (bs "SHPERCTRCT") false (TLeaf LInt)
  (FCons [] (bs "SUBACCTSEC") false (TLeaf (LEnum enum_subAcctType))
  (FCons [] (bs "RELFITID") true (TLeaf LString)
  (FCons [] (bs "GAIN") true (TLeaf LAmount) FNil))))))).
Definition ClosureOpt_ty : ty := TStruct (bs "CLOSUREOPT") ClosureOpt_fields.
Definition ClosureOpt_to (r : ClosureOpt) : interp ClosureOpt_ty :=
  (InvTran_to (ClosureOpt_InvTran r), (SecurityID_to (ClosureOpt_SecID r), (ClosureOpt_OptAction r, (ClosureOpt_Units r, (ClosureOpt_ShPerCtrct r, (ClosureOpt_SubAcctSec r, (ClosureOpt_RelFiTID r, (ClosureOpt_Gain r, tt)))))))).
Definition ClosureOpt_of (v : interp ClosureOpt_ty) : ClosureOpt :=
  let '(x0, (x1, (x2, (x3, (x4, (x5, (x6, (x7, tt)))))))) := v in
  mkClosureOpt (InvTran_of x0) (SecurityID_of x1) x2 x3 x4 x5 x6 x7.
Lemma ClosureOpt_iso r : ClosureOpt_of (ClosureOpt_to r) = r.
Proof.
  destruct r as [f0 f1 f2 f3 f4 f5 f6 f7]; cbv beta iota delta [ClosureOpt_of ClosureOpt_to ClosureOpt_InvTran ClosureOpt_SecID ClosureOpt_OptAction ClosureOpt_Units ClosureOpt_ShPerCtrct ClosureOpt_SubAcctSec ClosureOpt_RelFiTID ClosureOpt_Gain].
  all: rewrite ?InvTran_iso, ?SecurityID_iso.
  all: reflexivity.
Qed.

(** invstmt.go:228-241 *)
Definition Income_fields : flds :=
  FCons [] (bs "INVTRAN") false InvTran_ty
  (FCons [] (bs "SECID") false SecurityID_ty
  (FCons [] (bs "INCOMETYPE") false (TLeaf (LEnum enum_incomeType))
  (FCons [] (bs "TOTAL") false (TLeaf LAmount)
  (FCons [] (bs "SUBACCTSEC") false (TLeaf (LEnum enum_subAcctType))
  (FCons [] (bs "SUBACCTFUND") false (TLeaf (LEnum enum_subAcctType))
  (FCons [] (bs "TAXEXEMPT") true (TLeaf LBool)
  (FCons [] (bs "WITHHOLDING") true (TLeaf LAmount)
  (FCons [] (bs "CURRENCY") true Currency_ty
  (FCons [] (bs "ORIGCURRENCY") true Currency_ty
  (FCons [] (bs "INV401KSOURCE") true (TLeaf (LEnum enum_inv401kSource)) FNil)))))))))).
Definition Income_ty : ty := TStruct (bs "INCOME") Income_fields.
Definition Income_to (r : Income) : interp Income_ty :=
  (InvTran_to (Income_InvTran r), (SecurityID_to (Income_SecID r), (Income_IncomeType r, (Income_Total r, (Income_SubAcctSec r, (Income_SubAcctFund r, (Income_TaxExempt r, (Income_Withholding r, (Currency_to (Income_Currency r), (Currency_to (Income_OrigCurrency r), (Income_Inv401kSource r, tt))))))))))).
Definition Income_of (v : interp Income_ty) : Income :=
  let '(x0, (x1, (x2, (x3, (x4, (x5, (x6, (x7, (x8, (x9, (x10, tt))))))))))) := v in
  mkIncome (InvTran_of x0) (SecurityID_of x1) x2 x3 x4 x5 x6 x7 (Currency_of x8) (Currency_of x9) x10.
Lemma Income_iso r : Income_of (Income_to r) = r.
Proof.
  destruct r as [f0 f1 f2 f3 f4 f5 f6 f7 f8 f9 f10]; cbv beta iota delta [Income_of Income_to Income_InvTran Income_SecID Income_IncomeType Income_Total Income_SubAcctSec Income_SubAcctFund Income_TaxExempt Income_Withholding Income_Currency Income_OrigCurrency Income_Inv401kSource].
  all: rewrite ?Currency_iso, ?InvTran_iso, ?SecurityID_iso.
  all: reflexivity.
Qed.

(** invstmt.go:254-264 *)
Definition InvExpense_fields : flds :=
  FCons [] (bs "INVTRAN") false InvTran_ty
  (FCons [] (bs "SECID") false SecurityID_ty
  (FCons [] (bs "TOTAL") false (TLeaf LAmount)
  (FCons [] (bs "SUBACCTSEC") false (TLeaf (LEnum enum_subAcctType))
  (FCons [] (bs "SUBACCTFUND") false (TLeaf (LEnum enum_subAcctType))
  (FCons [] (bs "CURRENCY") true Currency_ty
  (FCons [] (bs "ORIGCURRENCY") true Currency_ty
  (FCons [] (bs "INV401KSOURCE") true (TLeaf (LEnum enum_inv401kSource)) FNil))))))).
Definition InvExpense_ty : ty := TStruct (bs "INVEXPENSE") InvExpense_fields.
Definition InvExpense_to (r : InvExpense) : interp InvExpense_ty :=
  (InvTran_to (InvExpense_InvTran r), (SecurityID_to (InvExpense_SecID r), (InvExpense_Total r, (InvExpense_SubAcctSec r, (InvExpense_SubAcctFund r, (Currency_to (InvExpense_Currency r), (Currency_to (InvExpense_OrigCurrency r), (InvExpense_Inv401kSource r, tt)))))))).
Definition InvExpense_of (v : interp InvExpense_ty) : InvExpense :=
  let '(x0, (x1, (x2, (x3, (x4, (x5, (x6, (x7, tt)))))))) := v in
  mkInvExpense (InvTran_of x0) (SecurityID_of x1) x2 x3 x4 (Currency_of x5) (Currency_of x6) x7.
Lemma InvExpense_iso r : InvExpense_of (InvExpense_to r) = r.
Proof.
  destruct r as [f0 f1 f2 f3 f4 f5 f6 f7]; cbv beta iota delta [InvExpense_of InvExpense_to InvExpense_InvTran InvExpense_SecID InvExpense_Total InvExpense_SubAcctSec InvExpense_SubAcctFund InvExpense_Currency InvExpense_OrigCurrency InvExpense_Inv401kSource].
  all: rewrite ?Currency_iso, ?InvTran_iso, ?SecurityID_iso.
  all: reflexivity.
Qed.

(** invstmt.go:277-283 *)
Definition JrnlFund_fields : flds :=
  FCons [] (bs "INVTRAN") false InvTran_ty
  (FCons [] (bs "TOTAL") false (TLeaf LAmount)
  (FCons [] (bs "SUBACCTFROM") false (TLeaf (LEnum enum_subAcctType))
  (FCons [] (bs "SUBACCTTO") false (TLeaf (LEnum enum_subAcctType)) FNil))).
Definition JrnlFund_ty : ty := TStruct (bs "JRNLFUND") JrnlFund_fields.
Definition JrnlFund_to (r : JrnlFund) : interp JrnlFund_ty :=
  (InvTran_to (JrnlFund_InvTran r), (JrnlFund_Total r, (JrnlFund_SubAcctFrom r, (JrnlFund_SubAcctTo r, tt)))).
Definition JrnlFund_of (v : interp JrnlFund_ty) : JrnlFund :=
  let '(x0, (x1, (x2, (x3, tt)))) := v in
  mkJrnlFund (InvTran_of x0) x1 x2 x3.
Lemma JrnlFund_iso r : JrnlFund_of (JrnlFund_to r) = r.
Proof.
  destruct r as [f0 f1 f2 f3]; cbv beta iota delta [JrnlFund_of JrnlFund_to JrnlFund_InvTran JrnlFund_Total JrnlFund_SubAcctFrom JrnlFund_SubAcctTo].
  all: rewrite ?InvTran_iso.
  all: reflexivity.
Qed.

(** invstmt.go:296-303 *)
Definition JrnlSec_fields : flds :=
  FCons [] (bs "INVTRAN") false InvTran_ty
  (FCons [] (bs "SECID") false SecurityID_ty
  (FCons [] (bs "SUBACCTFROM") false (TLeaf (LEnum enum_subAcctType))
  (FCons [] (bs "SUBACCTTO") false (TLeaf (LEnum enum_subAcctType))
  (FCons [] (bs "UNITS") false (TLeaf LAmount) FNil)))).
Definition JrnlSec_ty : ty := TStruct (bs "JRNLSEC") JrnlSec_fields.
Definition JrnlSec_to (r : JrnlSec) : interp JrnlSec_ty :=
  (InvTran_to (JrnlSec_InvTran r), (SecurityID_to (JrnlSec_SecID r), (JrnlSec_SubAcctFrom r, (JrnlSec_SubAcctTo r, (JrnlSec_Units r, tt))))).
Definition JrnlSec_of (v : interp JrnlSec_ty) : JrnlSec :=
  let '(x0, (x1, (x2, (x3, (x4, tt))))) := v in
  mkJrnlSec (InvTran_of x0) (SecurityID_of x1) x2 x3 x4.
Lemma JrnlSec_iso r : JrnlSec_of (JrnlSec_to r) = r.
Proof.
  destruct r as [f0 f1 f2 f3 f4]; cbv beta iota delta [JrnlSec_of JrnlSec_to JrnlSec_InvTran JrnlSec_SecID JrnlSec_SubAcctFrom JrnlSec_SubAcctTo JrnlSec_Units].
  all: rewrite ?InvTran_iso, ?SecurityID_iso.
  all: reflexivity.
Qed.

(** invstmt.go:315-322 *)
Definition MarginInterest_fields : flds :=
  FCons [] (bs "INVTRAN") false InvTran_ty
  (FCons [] (bs "TOTAL") false (TLeaf LAmount)
  (FCons [] (bs "SUBACCTFUND") false (TLeaf (LEnum enum_subAcctType))
  (FCons [] (bs "CURRENCY") true Currency_ty
  (FCons [] (bs "ORIGCURRENCY") true Currency_ty FNil)))).
Definition MarginInterest_ty : ty := TStruct (bs "MARGININTEREST") MarginInterest_fields.
Definition MarginInterest_to (r : MarginInterest) : interp MarginInterest_ty :=
  (InvTran_to (MarginInterest_InvTran r), (MarginInterest_Total r, (MarginInterest_SubAcctFund r, (Currency_to (MarginInterest_Currency r), (Currency_to (MarginInterest_OrigCurrency r), tt))))).
Definition MarginInterest_of (v : interp MarginInterest_ty) : MarginInterest :=
  let '(x0, (x1, (x2, (x3, (x4, tt))))) := v in
  mkMarginInterest (InvTran_of x0) x1 x2 (Currency_of x3) (Currency_of x4).
Lemma MarginInterest_iso r : MarginInterest_of (MarginInterest_to r) = r.
Proof.
  destruct r as [f0 f1 f2 f3 f4]; cbv beta iota delta [MarginInterest_of MarginInterest_to MarginInterest_InvTran MarginInterest_Total MarginInterest_SubAcctFund MarginInterest_Currency MarginInterest_OrigCurrency].
  all: rewrite ?Currency_iso, ?InvTran_iso.
  all: reflexivity.
Qed.

(** invstmt.go:336-353 *)
Definition Reinvest_fields : flds :=
  FCons [] (bs "INVTRAN") false InvTran_ty
  (FCons [] (bs "SECID") false SecurityID_ty
  (FCons [] (bs "INCOMETYPE") false (TLeaf (LEnum enum_incomeType))
  (FCons [] (bs "TOTAL") false (TLeaf LAmount)
  (FCons [] (bs "SUBACCTSEC") false (TLeaf (LEnum enum_subAcctType))
  (FCons [] (bs "UNITS") false (TLeaf LAmount)
  (FCons [] (bs "UNITPRICE") false (TLeaf LAmount)
  (FCons [] (bs "COMMISSION") true (TLeaf LAmount)
  (FCons [] (bs "TAXES") true (TLeaf LAmount)
  (FCons [] (bs "FEES") true (TLeaf LAmount)
  (FCons [] (bs "LOAD") true (TLeaf LAmount)
  (FCons [] (bs "TAXEXEMPT") true (TLeaf LBool)
  (FCons [] (bs "CURRENCY") true Currency_ty
  (FCons [] (bs "ORIGCURRENCY") true Currency_ty
  (FCons [] (bs "INV401KSOURCE") true (TLeaf (LEnum enum_inv401kSource)) FNil)))))))))))))).
Definition Reinvest_ty : ty := TStruct (bs "REINVEST") Reinvest_fields.
Definition Reinvest_to (r : Reinvest) : interp Reinvest_ty :=
  (InvTran_to (Reinvest_InvTran r), (SecurityID_to (Reinvest_SecID r), (Reinvest_IncomeType r, (Reinvest_Total r, (Reinvest_SubAcctSec r, (Reinvest_Units r, (Reinvest_UnitPrice r, (Reinvest_Commission r, (Reinvest_Taxes r, (Reinvest_Fees r, (Reinvest_Load r, (Reinvest_TaxExempt r, (Currency_to (Reinvest_Currency r), (Currency_to (Reinvest_OrigCurrency r), (Reinvest_Inv401kSource r, tt))))))))))))))).
Definition Reinvest_of (v : interp Reinvest_ty) : Reinvest :=
  let '(x0, (x1, (x2, (x3, (x4, (x5, (x6, (x7, (x8, (x9, (x10, (x11, (x12, (x13, (x14, tt))))))))))))))) := v in
  mkReinvest (InvTran_of x0) (SecurityID_of x1) x2 x3 x4 x5 x6 x7 x8 x9 x10 x11 (Currency_of x12) (Currency_of x13) x14.
Lemma Reinvest_iso r : Reinvest_of (Reinvest_to r) = r.
Proof.
  destruct r as [f0 f1 f2 f3 f4 f5 f6 f7 f8 f9 f10 f11 f12 f13 f14]; cbv beta iota delta [Reinvest_of Reinvest_to Reinvest_InvTran Reinvest_SecID Reinvest_IncomeType Reinvest_Total Reinvest_SubAcctSec Reinvest_Units Reinvest_UnitPrice Reinvest_Commission Reinvest_Taxes Reinvest_Fees Reinvest_Load Reinvest_TaxExempt Reinvest_Currency Reinvest_OrigCurrency Reinvest_Inv401kSource].
  all: rewrite ?Currency_iso, ?InvTran_iso, ?SecurityID_iso.
  all: reflexivity.
Qed.

(** invstmt.go:366-376 *)
Definition RetOfCap_fields : flds :=
  FCons [] (bs "INVTRAN") false InvTran_ty
  (FCons [] (bs "SECID") false SecurityID_ty
  (FCons [] (bs "TOTAL") false (TLeaf LAmount)
  (FCons [] (bs "SUBACCTSEC") false (TLeaf (LEnum enum_subAcctType))
  (FCons [] (bs "SUBACCTFUND") false (TLeaf (LEnum enum_subAcctType))
  (FCons [] (bs "CURRENCY") true Currency_ty
  (FCons [] (bs "ORIGCURRENCY") true Currency_ty
  (FCons [] (bs "INV401KSOURCE") true (TLeaf (LEnum enum_inv401kSource)) FNil))))))).
Definition RetOfCap_ty : ty := TStruct (bs "RETOFCAP") RetOfCap_fields.
Definition RetOfCap_to (r : RetOfCap) : interp RetOfCap_ty :=
  (InvTran_to (RetOfCap_InvTran r), (SecurityID_to (RetOfCap_SecID r), (RetOfCap_Total r, (RetOfCap_SubAcctSec r, (RetOfCap_SubAcctFund r, (Currency_to (RetOfCap_Currency r), (Currency_to (RetOfCap_OrigCurrency r), (RetOfCap_Inv401kSource r, tt)))))))).
Definition RetOfCap_of (v : interp RetOfCap_ty) : RetOfCap :=
  let '(x0, (x1, (x2, (x3, (x4, (x5, (x6, (x7, tt)))))))) := v in
  mkRetOfCap (InvTran_of x0) (SecurityID_of x1) x2 x3 x4 (Currency_of x5) (Currency_of x6) x7.
Lemma RetOfCap_iso r : RetOfCap_of (RetOfCap_to r) = r.
Proof.
  destruct r as [f0 f1 f2 f3 f4 f5 f6 f7]; cbv beta iota delta [RetOfCap_of RetOfCap_to RetOfCap_InvTran RetOfCap_SecID RetOfCap_Total RetOfCap_SubAcctSec RetOfCap_SubAcctFund RetOfCap_Currency RetOfCap_OrigCurrency RetOfCap_Inv401kSource].
  all: rewrite ?Currency_iso, ?InvTran_iso, ?SecurityID_iso.
  all: reflexivity.
Qed.

(** invstmt.go:389-394 *)
Definition SellDebt_fields : flds :=
  FCons [] (bs "INVSELL") false InvSell_ty
  (FCons [] (bs "SELLREASON") false (TLeaf (LEnum enum_sellReason))
  (FCons [] (bs "ACCRDINT") true (TLeaf LAmount) FNil)).
Definition SellDebt_ty : ty := TStruct (bs "SELLDEBT") SellDebt_fields.
Definition SellDebt_to (r : SellDebt) : interp SellDebt_ty :=
  (InvSell_to (SellDebt_InvSell r), (SellDebt_SellReason r, (SellDebt_AccrdInt r, tt))).
Definition SellDebt_of (v : interp SellDebt_ty) : SellDebt :=
  let '(x0, (x1, (x2, tt))) := v in
  mkSellDebt (InvSell_of x0) x1 x2.
Lemma SellDebt_iso r : SellDebt_of (SellDebt_to r) = r.
Proof.
  destruct r as [f0 f1 f2]; cbv beta iota delta [SellDebt_of SellDebt_to SellDebt_InvSell SellDebt_SellReason SellDebt_AccrdInt].
  all: rewrite ?InvSell_iso.
  all: reflexivity.
Qed.

(** invstmt.go:406-412 *)
Definition SellMF_fields : flds :=
  FCons [] (bs "INVSELL") false InvSell_ty
  (FCons [] (bs "SELLTYPE") false (TLeaf (LEnum enum_sellType))
  (FCons [] (bs "AVGCOSTBASIS") false (TLeaf LAmount)
  (FCons [] (bs "RELFITID") true (TLeaf LString) FNil))).
Definition SellMF_ty : ty := TStruct (bs "SELLMF") SellMF_fields.
Definition SellMF_to (r : SellMF) : interp SellMF_ty :=
  (InvSell_to (SellMF_InvSell r), (SellMF_SellType r, (SellMF_AvgCostBasis r, (SellMF_RelFiTID r, tt)))).
Definition SellMF_of (v : interp SellMF_ty) : SellMF :=
  let '(x0, (x1, (x2, (x3, tt)))) := v in
  mkSellMF (InvSell_of x0) x1 x2 x3.
Lemma SellMF_iso r : SellMF_of (SellMF_to r) = r.
Proof.
  destruct r as [f0 f1 f2 f3]; cbv beta iota delta [SellMF_of SellMF_to SellMF_InvSell SellMF_SellType SellMF_AvgCostBasis SellMF_RelFiTID].
  all: rewrite ?InvSell_iso.
  all: reflexivity.
Qed.

(** invstmt.go:426-434 *)
Definition SellOpt_fields : flds :=
  FCons [] (bs "INVSELL") false InvSell_ty
  (FCons [] (bs "OPTSELLTYPE") false (TLeaf (LEnum enum_optSellType))
  (FCons [] (bs "SHPERCTRCT") false (TLeaf LInt)
  (FCons [] (bs "RELFITID") true (TLeaf LString)
  (FCons [] (bs "RELTYPE") true (TLeaf (LEnum enum_relType))
  (FCons [] (bs "SECURED") true (TLeaf (LEnum enum_secured)) FNil))))).
Definition SellOpt_ty : ty := TStruct (bs "SELLOPT") SellOpt_fields.
Definition SellOpt_to (r : SellOpt) : interp SellOpt_ty :=
  (InvSell_to (SellOpt_InvSell r), (SellOpt_OptSellType r, (SellOpt_ShPerCtrct r, (SellOpt_RelFiTID r, (SellOpt_RelType r, (SellOpt_Secured r, tt)))))).
Definition SellOpt_of (v : interp SellOpt_ty) : SellOpt :=
  let '(x0, (x1, (x2, (x3, (x4, (x5, tt)))))) := v in
  mkSellOpt (InvSell_of x0) x1 x2 x3 x4 x5.
Lemma SellOpt_iso r : SellOpt_of (SellOpt_to r) = r.
Proof.
  destruct r as [f0 f1 f2 f3 f4 f5]; cbv beta iota delta [SellOpt_of SellOpt_to SellOpt_InvSell SellOpt_OptSellType SellOpt_ShPerCtrct SellOpt_RelFiTID SellOpt_RelType SellOpt_Secured].
  all: rewrite ?InvSell_iso.
  all: reflexivity.
Qed.

(** invstmt.go:447-450 *)
Definition SellOther_fields : flds :=
  FCons [] (bs "INVSELL") false InvSell_ty FNil.
Definition SellOther_ty : ty := TStruct (bs "SELLOTHER") SellOther_fields.
Definition SellOther_to (r : SellOther) : interp SellOther_ty :=
  (InvSell_to (SellOther_InvSell r), tt).
Definition SellOther_of (v : interp SellOther_ty) : SellOther :=
  let '(x0, tt) := v in
  mkSellOther (InvSell_of x0).
Lemma SellOther_iso r : SellOther_of (SellOther_to r) = r.
Proof.
  destruct r as [f0]; cbv beta iota delta [SellOther_of SellOther_to SellOther_InvSell].
  all: rewrite ?InvSell_iso.
  all: reflexivity.
Qed.

(** invstmt.go:462-466 *)
Definition SellStock_fields : flds :=
  FCons [] (bs "INVSELL") false InvSell_ty
  (FCons [] (bs "SELLTYPE") false (TLeaf (LEnum enum_sellType)) FNil).
Definition SellStock_ty : ty := TStruct (bs "SELLSTOCK") SellStock_fields.
Definition SellStock_to (r : SellStock) : interp SellStock_ty :=
  (InvSell_to (SellStock_InvSell r), (SellStock_SellType r, tt)).
Definition SellStock_of (v : interp SellStock_ty) : SellStock :=
  let '(x0, (x1, tt)) := v in
  mkSellStock (InvSell_of x0) x1.
Lemma SellStock_iso r : SellStock_of (SellStock_to r) = r.
Proof.
  destruct r as [f0 f1]; cbv beta iota delta [SellStock_of SellStock_to SellStock_InvSell SellStock_SellType].
  all: rewrite ?InvSell_iso.
  all: reflexivity.
Qed.

(** invstmt.go:478-492 *)
Definition Split_fields : flds :=
  FCons [] (bs "INVTRAN") false InvTran_ty
  (FCons [] (bs "SECID") false SecurityID_ty
  (FCons [] (bs "SUBACCTSEC") false (TLeaf (LEnum enum_subAcctType))
  (FCons [] (bs "OLDUNITS") false (TLeaf LAmount)
  (FCons [] (bs "NEWUNITS") false (TLeaf LAmount)
  (FCons [] (bs "NUMERATOR") false (TLeaf LInt)
  (FCons [] (bs "DENOMINATOR") false (TLeaf LInt)
  (FCons [] (bs "CURRENCY") true Currency_ty
  (FCons [] (bs "ORIGCURRENCY") true Currency_ty
  (FCons [] (bs "FRACCASH") true (TLeaf LAmount)
  (FCons [] (bs "SUBACCTFUND") true (TLeaf (LEnum enum_subAcctType))
  (FCons [] (bs "INV401KSOURCE") true (TLeaf (LEnum enum_inv401kSource)) FNil))))))))))).
Definition Split_ty : ty := TStruct (bs "SPLIT") Split_fields.
Definition Split_to (r : Split) : interp Split_ty :=
  (InvTran_to (Split_InvTran r), (SecurityID_to (Split_SecID r), (Split_SubAcctSec r, (Split_OldUnits r, (Split_NewUnits r, (Split_Numerator r, (Split_Denominator r, (Currency_to (Split_Currency r), (Currency_to (Split_OrigCurrency r), (Split_FracCash r, (Split_SubAcctFund r, (Split_Inv401kSource r, tt)))))))))))).
Definition Split_of (v : interp Split_ty) : Split :=
  let '(x0, (x1, (x2, (x3, (x4, (x5, (x6, (x7, (x8, (x9, (x10, (x11, tt)))))))))))) := v in
  mkSplit (InvTran_of x0) (SecurityID_of x1) x2 x3 x4 x5 x6 (Currency_of x7) (Currency_of x8) x9 x10 x11.
Lemma Split_iso r : Split_of (Split_to r) = r.
Proof.
  destruct r as [f0 f1 f2 f3 f4 f5 f6 f7 f8 f9 f10 f11]; cbv beta iota delta [Split_of Split_to Split_InvTran Split_SecID Split_SubAcctSec Split_OldUnits Split_NewUnits Split_Numerator Split_Denominator Split_Currency Split_OrigCurrency Split_FracCash Split_SubAcctFund Split_Inv401kSource].
  all: rewrite ?Currency_iso, ?InvTran_iso, ?SecurityID_iso.
  all: reflexivity.
Qed.

(** invstmt.go:504-517 *)
Definition Transfer_fields : flds :=
  FCons [] (bs "INVTRAN") false InvTran_ty
  (FCons [] (bs "SECID") false SecurityID_ty
  (FCons [] (bs "SUBACCTSEC") false (TLeaf (LEnum enum_subAcctType))
  (FCons [] (bs "UNITS") false (TLeaf LAmount)
  (FCons [] (bs "TFERACTION") false (TLeaf (LEnum enum_tferAction))
  (FCons [] (bs "POSTYPE") false (TLeaf (LEnum enum_posType))
  (FCons [] (bs "INVACCTFROM") true InvAcct_ty
  (FCons [] (bs "AVGCOSTBASIS") true (TLeaf LAmount)
  (FCons [] (bs "UNITPRICE") true (TLeaf LAmount)
  (FCons [] (bs "DTPURCHASE") true (TPtr (TLeaf LDate))
  (FCons [] (bs "INV401KSOURCE") true (TLeaf (LEnum enum_inv401kSource)) FNil)))))))))).
Definition Transfer_ty : ty := TStruct (bs "TRANSFER") Transfer_fields.
Definition Transfer_to (r : Transfer) : interp Transfer_ty :=
  (InvTran_to (Transfer_InvTran r), (SecurityID_to (Transfer_SecID r), (Transfer_SubAcctSec r, (Transfer_Units r, (Transfer_TferAction r, (Transfer_PosType r, (InvAcct_to (Transfer_InvAcctFrom r), (Transfer_AvgCostBasis r, (Transfer_UnitPrice r, (Transfer_DtPurchase r, (Transfer_Inv401kSource r, tt))))))))))).
Definition Transfer_of (v : interp Transfer_ty) : Transfer :=
  let '(x0, (x1, (x2, (x3, (x4, (x5, (x6, (x7, (x8, (x9, (x10, tt))))))))))) := v in
  mkTransfer (InvTran_of x0) (SecurityID_of x1) x2 x3 x4 x5 (InvAcct_of x6) x7 x8 x9 x10.
Lemma Transfer_iso r : Transfer_of (Transfer_to r) = r.
Proof.
  destruct r as [f0 f1 f2 f3 f4 f5 f6 f7 f8 f9 f10]; cbv beta iota delta [Transfer_of Transfer_to Transfer_InvTran Transfer_SecID Transfer_SubAcctSec Transfer_Units Transfer_TferAction Transfer_PosType Transfer_InvAcctFrom Transfer_AvgCostBasis Transfer_UnitPrice Transfer_DtPurchase Transfer_Inv401kSource].
  all: rewrite ?InvAcct_iso, ?InvTran_iso, ?SecurityID_iso.
  all: reflexivity.
Qed.

(** invstmt.go:538-542 *)
Definition InvBankTransaction_fields : flds :=
  FCons [] (bs "STMTTRN") true (TSlice Transaction_ty)
  (FCons [] (bs "SUBACCTFUND") false (TLeaf (LEnum enum_subAcctType)) FNil).
Definition InvBankTransaction_ty : ty := TStruct (bs "INVBANKTRAN") InvBankTransaction_fields.
Definition InvBankTransaction_to (r : InvBankTransaction) : interp InvBankTransaction_ty :=
  (map Transaction_to (InvBankTransaction_Transactions r), (InvBankTransaction_SubAcctFund r, tt)).
Definition InvBankTransaction_of (v : interp InvBankTransaction_ty) : InvBankTransaction :=
  let '(x0, (x1, tt)) := v in
  mkInvBankTransaction (map Transaction_of x0) x1.
Lemma InvBankTransaction_iso r : InvBankTransaction_of (InvBankTransaction_to r) = r.
Proof.
  destruct r as [f0 f1]; cbv beta iota delta [InvBankTransaction_of InvBankTransaction_to InvBankTransaction_Transactions InvBankTransaction_SubAcctFund].
  all: rewrite ?(map_iso _ _ Transaction_iso), ?Transaction_iso.
  all: reflexivity.
Qed.

(** invstmt.go:558-713 and 716-826: the names accepted and the names written. *)
Definition InvTransaction_alts : alts :=
  ACons (bs "BUYDEBT") (bs "BUYDEBT") BuyDebt_ty
  (ACons (bs "BUYMF") (bs "BUYMF") BuyMF_ty
  (ACons (bs "BUYOPT") (bs "BUYOPT") BuyOpt_ty
  (ACons (bs "BUYOTHER") (bs "BUYOTHER") BuyOther_ty
  (ACons (bs "BUYSTOCK") (bs "BUYSTOCK") BuyStock_ty
  (ACons (bs "CLOSUREOPT") (bs "CLOSUREOPT") ClosureOpt_ty
  (ACons (bs "INCOME") (bs "INCOME") Income_ty
  (ACons (bs "INVEXPENSE") (bs "INVEXPENSE") InvExpense_ty
  (ACons (bs "JRNLFUND") (bs "JRNLFUND") JrnlFund_ty
  (ACons (bs "JRNLSEC") (bs "JRNLSEC") JrnlSec_ty
  (ACons (bs "MARGININTEREST") (bs "MARGININTEREST") MarginInterest_ty
  (ACons (bs "REINVEST") (bs "REINVEST") Reinvest_ty
  (ACons (bs "RETOFCAP") (bs "RETOFCAP") RetOfCap_ty
  (ACons (bs "SELLDEBT") (bs "SELLDEBT") SellDebt_ty
  (ACons (bs "SELLMF") (bs "SELLMF") SellMF_ty
  (ACons (bs "SELLOPT") (bs "SELLOPT") SellOpt_ty
  (ACons (bs "SELLOTHER") (bs "SELLOTHER") SellOther_ty
  (ACons (bs "SELLSTOCK") (bs "SELLSTOCK") SellStock_ty
  (ACons (bs "SPLIT") (bs "SPLIT") Split_ty
  (ACons (bs "TRANSFER") (bs "TRANSFER") Transfer_ty ANil))))))))))))))))))).
Definition InvTransaction_to (r : InvTransaction) : interp_alts InvTransaction_alts :=
  match r with
  | InvTransaction_BuyDebt x => inl (BuyDebt_to x)
  | InvTransaction_BuyMF x => inr (inl (BuyMF_to x))
  | InvTransaction_BuyOpt x => inr (inr (inl (BuyOpt_to x)))
  | InvTransaction_BuyOther x => inr (inr (inr (inl (BuyOther_to x))))
  | InvTransaction_BuyStock x => inr (inr (inr (inr (inl (BuyStock_to x)))))
  | InvTransaction_ClosureOpt x => inr (inr (inr (inr (inr (inl (ClosureOpt_to x))))))
  | InvTransaction_Income x => inr (inr (inr (inr (inr (inr (inl (Income_to x)))))))
  | InvTransaction_InvExpense x => inr (inr (inr (inr (inr (inr (inr (inl (InvExpense_to x))))))))
  | InvTransaction_JrnlFund x => inr (inr (inr (inr (inr (inr (inr (inr (inl (JrnlFund_to x)))))))))
  | InvTransaction_JrnlSec x => inr (inr (inr (inr (inr (inr (inr (inr (inr (inl (JrnlSec_to x))))))))))
  | InvTransaction_MarginInterest x => inr (inr (inr (inr (inr (inr (inr (inr (inr (inr (inl (MarginInterest_to x)))))))))))
  | InvTransaction_Reinvest x => inr (inr (inr (inr (inr (inr (inr (inr (inr (inr (inr (inl (Reinvest_to x))))))))))))
  | InvTransaction_RetOfCap x => inr (inr (inr (inr (inr (inr (inr (inr (inr (inr (inr (inr (inl (RetOfCap_to x)))))))))))))
  | InvTransaction_SellDebt x => inr (inr (inr (inr (inr (inr (inr (inr (inr (inr (inr (inr (inr (inl (SellDebt_to x))))))))))))))
  | InvTransaction_SellMF x => inr (inr (inr (inr (inr (inr (inr (inr (inr (inr (inr (inr (inr (inr (inl (SellMF_to x)))))))))))))))
  | InvTransaction_SellOpt x => inr (inr (inr (inr (inr (inr (inr (inr (inr (inr (inr (inr (inr (inr (inr (inl (SellOpt_to x))))))))))))))))
  | InvTransaction_SellOther x => inr (inr (inr (inr (inr (inr (inr (inr (inr (inr (inr (inr (inr (inr (inr (inr (inl (SellOther_to x)))))))))))))))))
  | InvTransaction_SellStock x => inr (inr (inr (inr (inr (inr (inr (inr (inr (inr (inr (inr (inr (inr (inr (inr (inr (inl (SellStock_to x))))))))))))))))))
  | InvTransaction_Split x => inr (inr (inr (inr (inr (inr (inr (inr (inr (inr (inr (inr (inr (inr (inr (inr (inr (inr (inl (Split_to x)))))))))))))))))))
  | InvTransaction_Transfer x => inr (inr (inr (inr (inr (inr (inr (inr (inr (inr (inr (inr (inr (inr (inr (inr (inr (inr (inr (inl (Transfer_to x))))))))))))))))))))
  end.
Definition InvTransaction_of (v0 : interp_alts InvTransaction_alts) : InvTransaction :=
  match v0 with inl x => InvTransaction_BuyDebt (BuyDebt_of x) | inr v1 =>
  match v1 with inl x => InvTransaction_BuyMF (BuyMF_of x) | inr v2 =>
  match v2 with inl x => InvTransaction_BuyOpt (BuyOpt_of x) | inr v3 =>
  match v3 with inl x => InvTransaction_BuyOther (BuyOther_of x) | inr v4 =>
  match v4 with inl x => InvTransaction_BuyStock (BuyStock_of x) | inr v5 =>
  match v5 with inl x => InvTransaction_ClosureOpt (ClosureOpt_of x) | inr v6 =>
  match v6 with inl x => InvTransaction_Income (Income_of x) | inr v7 =>
  match v7 with inl x => InvTransaction_InvExpense (InvExpense_of x) | inr v8 =>
  match v8 with inl x => InvTransaction_JrnlFund (JrnlFund_of x) | inr v9 =>
  match v9 with inl x => InvTransaction_JrnlSec (JrnlSec_of x) | inr v10 =>
  match v10 with inl x => InvTransaction_MarginInterest (MarginInterest_of x) | inr v11 =>
  match v11 with inl x => InvTransaction_Reinvest (Reinvest_of x) | inr v12 =>
  match v12 with inl x => InvTransaction_RetOfCap (RetOfCap_of x) | inr v13 =>
  match v13 with inl x => InvTransaction_SellDebt (SellDebt_of x) | inr v14 =>
  match v14 with inl x => InvTransaction_SellMF (SellMF_of x) | inr v15 =>
  match v15 with inl x => InvTransaction_SellOpt (SellOpt_of x) | inr v16 =>
  match v16 with inl x => InvTransaction_SellOther (SellOther_of x) | inr v17 =>
  match v17 with inl x => InvTransaction_SellStock (SellStock_of x) | inr v18 =>
  match v18 with inl x => InvTransaction_Split (Split_of x) | inr v19 =>
  match v19 with inl x => InvTransaction_Transfer (Transfer_of x) | inr v20 =>
  match v20 with end end end end end end end end end end end end end end end end end end end end end.
Lemma InvTransaction_iso r : InvTransaction_of (InvTransaction_to r) = r.
Proof.
  destruct r; cbv beta iota delta [InvTransaction_of InvTransaction_to ].
  all: rewrite ?BuyDebt_iso, ?BuyMF_iso, ?BuyOpt_iso, ?BuyOther_iso, ?BuyStock_iso, ?ClosureOpt_iso, ?Income_iso, ?InvExpense_iso, ?JrnlFund_iso, ?JrnlSec_iso, ?MarginInterest_iso, ?Reinvest_iso, ?RetOfCap_iso, ?SellDebt_iso, ?SellMF_iso, ?SellOpt_iso, ?SellOther_iso, ?SellStock_iso, ?Split_iso, ?Transfer_iso.
  all: reflexivity.
Qed.

(** invstmt.go:548-554, and its UnmarshalXML and MarshalXML methods *)
Definition InvTranList_fields : flds :=
  FCons [] (bs "DTSTART") false (TLeaf LDate)
  (FCons [] (bs "DTEND") false (TLeaf LDate)
  (FCons [] (bs "") false (TAlts InvTransaction_alts)
  (FCons [] (bs "INVBANKTRAN") false (TSlice InvBankTransaction_ty) FNil))).
Definition InvTranList_ty : ty := TCustom (bs "INVTRANLIST") InvTranList_fields.
Definition InvTranList_to (r : InvTranList) : interp InvTranList_ty :=
  (InvTranList_DtStart r, (InvTranList_DtEnd r, (map InvTransaction_to (InvTranList_InvTransactions r), (map InvBankTransaction_to (InvTranList_BankTransactions r), tt)))).
Definition InvTranList_of (v : interp InvTranList_ty) : InvTranList :=
  let '(x0, (x1, (x2, (x3, tt)))) := v in
  mkInvTranList x0 x1 (map InvTransaction_of x2) (map InvBankTransaction_of x3).
Lemma InvTranList_iso r : InvTranList_of (InvTranList_to r) = r.
Proof.
  destruct r as [f0 f1 f2 f3]; cbv beta iota delta [InvTranList_of InvTranList_to InvTranList_DtStart InvTranList_DtEnd InvTranList_InvTransactions InvTranList_BankTransactions].
  all: rewrite ?(map_iso _ _ InvBankTransaction_iso), ?(map_iso _ _ InvTransaction_iso), ?InvBankTransaction_iso, ?InvTransaction_iso.
  all: reflexivity.
Qed.

(** invstmt.go:830-843 *)
Definition InvPosition_fields : flds :=
  FCons [] (bs "SECID") false SecurityID_ty
  (FCons [] (bs "HELDINACCT") false (TLeaf (LEnum enum_subAcctType))
  (FCons [] (bs "POSTYPE") false (TLeaf (LEnum enum_posType))
  (FCons [] (bs "UNITS") false (TLeaf LAmount)
  (FCons [] (bs "UNITPRICE") false (TLeaf LAmount)
  (FCons [] (bs "MKTVAL") false (TLeaf LAmount)
  (FCons [] (bs "AVGCOSTBASIS") true (TLeaf LAmount)
  (FCons [] (bs "DTPRICEASOF") false (TLeaf LDate)
  (FCons [] (bs "CURRENCY") true (TPtr Currency_ty)
  (FCons [] (bs "MEMO") true (TLeaf LString)
  (FCons [] (bs "INV401KSOURCE") true (TLeaf (LEnum enum_inv401kSource)) FNil)))))))))).
Definition InvPosition_ty : ty := TStruct (bs "INVPOS") InvPosition_fields.
Definition InvPosition_to (r : InvPosition) : interp InvPosition_ty :=
  (SecurityID_to (InvPosition_SecID r), (InvPosition_HeldInAcct r, (InvPosition_PosType r, (InvPosition_Units r, (InvPosition_UnitPrice r, (InvPosition_MktVal r, (InvPosition_AvgCostBasis r, (InvPosition_DtPriceAsOf r, (option_map Currency_to (InvPosition_Currency r), (InvPosition_Memo r, (InvPosition_Inv401kSource r, tt))))))))))).
Definition InvPosition_of (v : interp InvPosition_ty) : InvPosition :=
  let '(x0, (x1, (x2, (x3, (x4, (x5, (x6, (x7, (x8, (x9, (x10, tt))))))))))) := v in
  mkInvPosition (SecurityID_of x0) x1 x2 x3 x4 x5 x6 x7 (option_map Currency_of x8) x9 x10.
Lemma InvPosition_iso r : InvPosition_of (InvPosition_to r) = r.
Proof.
  destruct r as [f0 f1 f2 f3 f4 f5 f6 f7 f8 f9 f10]; cbv beta iota delta [InvPosition_of InvPosition_to InvPosition_SecID InvPosition_HeldInAcct InvPosition_PosType InvPosition_Units InvPosition_UnitPrice InvPosition_MktVal InvPosition_AvgCostBasis InvPosition_DtPriceAsOf InvPosition_Currency InvPosition_Memo InvPosition_Inv401kSource].
  all: rewrite ?(option_map_iso _ _ Currency_iso), ?Currency_iso, ?SecurityID_iso.
  all: reflexivity.
Qed.

(** invstmt.go:852-855 *)
Definition DebtPosition_fields : flds :=
  FCons [] (bs "INVPOS") false InvPosition_ty FNil.
Definition DebtPosition_ty : ty := TStruct (bs "POSDEBT") DebtPosition_fields.
Definition DebtPosition_to (r : DebtPosition) : interp DebtPosition_ty :=
  (InvPosition_to (DebtPosition_InvPos r), tt).
Definition DebtPosition_of (v : interp DebtPosition_ty) : DebtPosition :=
  let '(x0, tt) := v in
  mkDebtPosition (InvPosition_of x0).
Lemma DebtPosition_iso r : DebtPosition_of (DebtPosition_to r) = r.
Proof.
  destruct r as [f0]; cbv beta iota delta [DebtPosition_of DebtPosition_to DebtPosition_InvPos].
  all: rewrite ?InvPosition_iso.
  all: reflexivity.
Qed.

(** invstmt.go:868-875 *)
Definition MFPosition_fields : flds :=
  FCons [] (bs "INVPOS") false InvPosition_ty
  (FCons [] (bs "UNITSSTREET") true (TLeaf LAmount)
  (FCons [] (bs "UNITSUSER") true (TLeaf LAmount)
  (FCons [] (bs "REINVDIV") true (TLeaf LBool)
  (FCons [] (bs "REINVCG") true (TLeaf LBool) FNil)))).
Definition MFPosition_ty : ty := TStruct (bs "POSMF") MFPosition_fields.
Definition MFPosition_to (r : MFPosition) : interp MFPosition_ty :=
  (InvPosition_to (MFPosition_InvPos r), (MFPosition_UnitsStreet r, (MFPosition_UnitsUser r, (MFPosition_ReinvDiv r, (MFPosition_ReinvCG r, tt))))).
Definition MFPosition_of (v : interp MFPosition_ty) : MFPosition :=
  let '(x0, (x1, (x2, (x3, (x4, tt))))) := v in
  mkMFPosition (InvPosition_of x0) x1 x2 x3 x4.
Lemma MFPosition_iso r : MFPosition_of (MFPosition_to r) = r.
Proof.
  destruct r as [f0 f1 f2 f3 f4]; cbv beta iota delta [MFPosition_of MFPosition_to MFPosition_InvPos MFPosition_UnitsStreet MFPosition_UnitsUser MFPosition_ReinvDiv MFPosition_ReinvCG].
  all: rewrite ?InvPosition_iso.
  all: reflexivity.
Qed.

(** invstmt.go:888-892 *)
Definition OptPosition_fields : flds :=
  FCons [] (bs "INVPOS") false InvPosition_ty
  (FCons [] (bs "SECURED") true (TLeaf (LEnum enum_secured)) FNil).
Definition OptPosition_ty : ty := TStruct (bs "POSOPT") OptPosition_fields.
Definition OptPosition_to (r : OptPosition) : interp OptPosition_ty :=
  (InvPosition_to (OptPosition_InvPos r), (OptPosition_Secured r, tt)).
Definition OptPosition_of (v : interp OptPosition_ty) : OptPosition :=
  let '(x0, (x1, tt)) := v in
  mkOptPosition (InvPosition_of x0) x1.
Lemma OptPosition_iso r : OptPosition_of (OptPosition_to r) = r.
Proof.
  destruct r as [f0 f1]; cbv beta iota delta [OptPosition_of OptPosition_to OptPosition_InvPos OptPosition_Secured].
  all: rewrite ?InvPosition_iso.
  all: reflexivity.
Qed.

(** invstmt.go:906-909 *)
Definition OtherPosition_fields : flds :=
  FCons [] (bs "INVPOS") false InvPosition_ty FNil.
Definition OtherPosition_ty : ty := TStruct (bs "POSOTHER") OtherPosition_fields.
Definition OtherPosition_to (r : OtherPosition) : interp OtherPosition_ty :=
  (InvPosition_to (OtherPosition_InvPos r), tt).
Definition OtherPosition_of (v : interp OtherPosition_ty) : OtherPosition :=
  let '(x0, tt) := v in
  mkOtherPosition (InvPosition_of x0).
Lemma OtherPosition_iso r : OtherPosition_of (OtherPosition_to r) = r.
Proof.
  destruct r as [f0]; cbv beta iota delta [OtherPosition_of OtherPosition_to OtherPosition_InvPos].
  all: rewrite ?InvPosition_iso.
  all: reflexivity.
Qed.

(** invstmt.go:922-928 *)
Definition StockPosition_fields : flds :=
  FCons [] (bs "INVPOS") false InvPosition_ty
  (FCons [] (bs "UNITSSTREET") true (TLeaf LAmount)
  (FCons [] (bs "UNITSUSER") true (TLeaf LAmount)
  (FCons [] (bs "REINVDIV") true (TLeaf LBool) FNil))).
Definition StockPosition_ty : ty := TStruct (bs "POSSTOCK") StockPosition_fields.
Definition StockPosition_to (r : StockPosition) : interp StockPosition_ty :=
  (InvPosition_to (StockPosition_InvPos r), (StockPosition_UnitsStreet r, (StockPosition_UnitsUser r, (StockPosition_ReinvDiv r, tt)))).
Definition StockPosition_of (v : interp StockPosition_ty) : StockPosition :=
  let '(x0, (x1, (x2, (x3, tt)))) := v in
  mkStockPosition (InvPosition_of x0) x1 x2 x3.
Lemma StockPosition_iso r : StockPosition_of (StockPosition_to r) = r.
Proof.
  destruct r as [f0 f1 f2 f3]; cbv beta iota delta [StockPosition_of StockPosition_to StockPosition_InvPos StockPosition_UnitsStreet StockPosition_UnitsUser StockPosition_ReinvDiv].
  all: rewrite ?InvPosition_iso.
  all: reflexivity.
Qed.

(** invstmt.go:1036-1043 *)
Definition InvBalance_fields : flds :=
  FCons [] (bs "AVAILCASH") false (TLeaf LAmount)
  (FCons [] (bs "MARGINBALANCE") false (TLeaf LAmount)
  (FCons [] (bs "SHORTBALANCE") false (TLeaf LAmount)
  (FCons [] (bs "BUYPOWER") true (TLeaf LAmount)
  (FCons [bs "BALLIST"] (bs "BAL") true (TSlice Balance_ty) FNil)))).
Definition InvBalance_ty : ty := TStruct (bs "INVBAL") InvBalance_fields.
Definition InvBalance_to (r : InvBalance) : interp InvBalance_ty :=
  (InvBalance_AvailCash r, (InvBalance_MarginBalance r, (InvBalance_ShortBalance r, (InvBalance_BuyPower r, (map Balance_to (InvBalance_BalList r), tt))))).
Definition InvBalance_of (v : interp InvBalance_ty) : InvBalance :=
  let '(x0, (x1, (x2, (x3, (x4, tt))))) := v in
  mkInvBalance x0 x1 x2 x3 (map Balance_of x4).
Lemma InvBalance_iso r : InvBalance_of (InvBalance_to r) = r.
Proof.
  destruct r as [f0 f1 f2 f3 f4]; cbv beta iota delta [InvBalance_of InvBalance_to InvBalance_AvailCash InvBalance_MarginBalance InvBalance_ShortBalance InvBalance_BuyPower InvBalance_BalList].
  all: rewrite ?(map_iso _ _ Balance_iso), ?Balance_iso.
  all: reflexivity.
Qed.

(** invstmt.go:1047-1063 *)
Definition OO_fields : flds :=
  FCons [] (bs "FITID") false (TLeaf LString)
  (FCons [] (bs "SRVRTID") true (TLeaf LString)
  (FCons [] (bs "SECID") false SecurityID_ty
  (FCons [] (bs "DTPLACED") false (TLeaf LDate)
  (FCons [] (bs "UNITS") false (TLeaf LAmount)
  (FCons [] (bs "SUBACCT") false (TLeaf (LEnum enum_subAcctType))
  (FCons [] (bs "DURATION") false (TLeaf (LEnum enum_duration))
  (FCons [] (bs "RESTRICTION") false (TLeaf (LEnum enum_restriction))
  (FCons [] (bs "MINUNITS") true (TLeaf LAmount)
  (FCons [] (bs "LIMITPRICE") true (TLeaf LAmount)
  (FCons [] (bs "STOPPRICE") true (TLeaf LAmount)
  (FCons [] (bs "MEMO") true (TLeaf LString)
  (FCons [] (bs "CURRENCY") true (TPtr Currency_ty)
  (FCons [] (bs "INV401KSOURCE") true (TLeaf (LEnum enum_inv401kSource)) FNil))))))))))))).
Definition OO_ty : ty := TStruct (bs "OO") OO_fields.
Definition OO_to (r : OO) : interp OO_ty :=
  (OO_FiTID r, (OO_SrvrTID r, (SecurityID_to (OO_SecID r), (OO_DtPlaced r, (OO_Units r, (OO_SubAcct r, (OO_Duration r, (OO_Restriction r, (OO_MinUnits r, (OO_LimitPrice r, (OO_StopPrice r, (OO_Memo r, (option_map Currency_to (OO_Currency r), (OO_Inv401kSource r, tt)))))))))))))).
Definition OO_of (v : interp OO_ty) : OO :=
  let '(x0, (x1, (x2, (x3, (x4, (x5, (x6, (x7, (x8, (x9, (x10, (x11, (x12, (x13, tt)))))))))))))) := v in
  mkOO x0 x1 (SecurityID_of x2) x3 x4 x5 x6 x7 x8 x9 x10 x11 (option_map Currency_of x12) x13.
Lemma OO_iso r : OO_of (OO_to r) = r.
Proof.
  destruct r as [f0 f1 f2 f3 f4 f5 f6 f7 f8 f9 f10 f11 f12 f13]; cbv beta iota delta [OO_of OO_to OO_FiTID OO_SrvrTID OO_SecID OO_DtPlaced OO_Units OO_SubAcct OO_Duration OO_Restriction OO_MinUnits OO_LimitPrice OO_StopPrice OO_Memo OO_Currency OO_Inv401kSource].
  all: rewrite ?(option_map_iso _ _ Currency_iso), ?Currency_iso, ?SecurityID_iso.
  all: reflexivity.
Qed.

(** invstmt.go:1071-1076 *)
Definition OOBuyDebt_fields : flds :=
  FCons [] (bs "OO") false OO_ty
  (FCons [] (bs "AUCTION") false (TLeaf LBool)
  (FCons [] (bs "DTAUCTION") true (TPtr (TLeaf LDate)) FNil)).
Definition OOBuyDebt_ty : ty := TStruct (bs "OOBUYDEBT") OOBuyDebt_fields.
Definition OOBuyDebt_to (r : OOBuyDebt) : interp OOBuyDebt_ty :=
  (OO_to (OOBuyDebt_OO r), (OOBuyDebt_Auction r, (OOBuyDebt_DtAuction r, tt))).
Definition OOBuyDebt_of (v : interp OOBuyDebt_ty) : OOBuyDebt :=
  let '(x0, (x1, (x2, tt))) := v in
  mkOOBuyDebt (OO_of x0) x1 x2.
Lemma OOBuyDebt_iso r : OOBuyDebt_of (OOBuyDebt_to r) = r.
Proof.
  destruct r as [f0 f1 f2]; cbv beta iota delta [OOBuyDebt_of OOBuyDebt_to OOBuyDebt_OO OOBuyDebt_Auction OOBuyDebt_DtAuction].
  all: rewrite ?OO_iso.
  all: reflexivity.
Qed.

(** invstmt.go:1084-1089 *)
Definition OOBuyMF_fields : flds :=
  FCons [] (bs "OO") false OO_ty
  (FCons [] (bs "BUYTYPE") false (TLeaf (LEnum enum_buyType))
  (FCons [] (bs "UNITTYPE") false (TLeaf (LEnum enum_unitType)) FNil)).
Definition OOBuyMF_ty : ty := TStruct (bs "OOBUYMF") OOBuyMF_fields.
Definition OOBuyMF_to (r : OOBuyMF) : interp OOBuyMF_ty :=
  (OO_to (OOBuyMF_OO r), (OOBuyMF_BuyType r, (OOBuyMF_UnitType r, tt))).
Definition OOBuyMF_of (v : interp OOBuyMF_ty) : OOBuyMF :=
  let '(x0, (x1, (x2, tt))) := v in
  mkOOBuyMF (OO_of x0) x1 x2.
Lemma OOBuyMF_iso r : OOBuyMF_of (OOBuyMF_to r) = r.
Proof.
  destruct r as [f0 f1 f2]; cbv beta iota delta [OOBuyMF_of OOBuyMF_to OOBuyMF_OO OOBuyMF_BuyType OOBuyMF_UnitType].
  all: rewrite ?OO_iso.
  all: reflexivity.
Qed.

(** invstmt.go:1097-1101 *)
Definition OOBuyOpt_fields : flds :=
  FCons [] (bs "OO") false OO_ty
  (FCons [] (bs "OPTBUYTYPE") false (TLeaf (LEnum enum_optBuyType)) FNil).
Definition OOBuyOpt_ty : ty := TStruct (bs "OOBUYOPT") OOBuyOpt_fields.
Definition OOBuyOpt_to (r : OOBuyOpt) : interp OOBuyOpt_ty :=
  (OO_to (OOBuyOpt_OO r), (OOBuyOpt_OptBuyType r, tt)).
Definition OOBuyOpt_of (v : interp OOBuyOpt_ty) : OOBuyOpt :=
  let '(x0, (x1, tt)) := v in
  mkOOBuyOpt (OO_of x0) x1.
Lemma OOBuyOpt_iso r : OOBuyOpt_of (OOBuyOpt_to r) = r.
Proof.
  destruct r as [f0 f1]; cbv beta iota delta [OOBuyOpt_of OOBuyOpt_to OOBuyOpt_OO OOBuyOpt_OptBuyType].
  all: rewrite ?OO_iso.
  all: reflexivity.
Qed.

(** invstmt.go:1110-1114 *)
Definition OOBuyOther_fields : flds :=
  FCons [] (bs "OO") false OO_ty
  (FCons [] (bs "UNITTYPE") false (TLeaf (LEnum enum_unitType)) FNil).
Definition OOBuyOther_ty : ty := TStruct (bs "OOBUYOTHER") OOBuyOther_fields.
Definition OOBuyOther_to (r : OOBuyOther) : interp OOBuyOther_ty :=
  (OO_to (OOBuyOther_OO r), (OOBuyOther_UnitType r, tt)).
Definition OOBuyOther_of (v : interp OOBuyOther_ty) : OOBuyOther :=
  let '(x0, (x1, tt)) := v in
  mkOOBuyOther (OO_of x0) x1.
Lemma OOBuyOther_iso r : OOBuyOther_of (OOBuyOther_to r) = r.
Proof.
  destruct r as [f0 f1]; cbv beta iota delta [OOBuyOther_of OOBuyOther_to OOBuyOther_OO OOBuyOther_UnitType].
  all: rewrite ?OO_iso.
  all: reflexivity.
Qed.

(** invstmt.go:1122-1126 *)
Definition OOBuyStock_fields : flds :=
  FCons [] (bs "OO") false OO_ty
  (FCons [] (bs "BUYTYPE") false (TLeaf (LEnum enum_buyType)) FNil).
Definition OOBuyStock_ty : ty := TStruct (bs "OOBUYSTOCK") OOBuyStock_fields.
Definition OOBuyStock_to (r : OOBuyStock) : interp OOBuyStock_ty :=
  (OO_to (OOBuyStock_OO r), (OOBuyStock_BuyType r, tt)).
Definition OOBuyStock_of (v : interp OOBuyStock_ty) : OOBuyStock :=
  let '(x0, (x1, tt)) := v in
  mkOOBuyStock (OO_of x0) x1.
Lemma OOBuyStock_iso r : OOBuyStock_of (OOBuyStock_to r) = r.
Proof.
  destruct r as [f0 f1]; cbv beta iota delta [OOBuyStock_of OOBuyStock_to OOBuyStock_OO OOBuyStock_BuyType].
  all: rewrite ?OO_iso.
  all: reflexivity.
Qed.

(** invstmt.go:1134-1137 *)
Definition OOSellDebt_fields : flds :=
  FCons [] (bs "OO") false OO_ty FNil.
Definition OOSellDebt_ty : ty := TStruct (bs "OOSELLDEBT") OOSellDebt_fields.
Definition OOSellDebt_to (r : OOSellDebt) : interp OOSellDebt_ty :=
  (OO_to (OOSellDebt_OO r), tt).
Definition OOSellDebt_of (v : interp OOSellDebt_ty) : OOSellDebt :=
  let '(x0, tt) := v in
  mkOOSellDebt (OO_of x0).
Lemma OOSellDebt_iso r : OOSellDebt_of (OOSellDebt_to r) = r.
Proof.
  destruct r as [f0]; cbv beta iota delta [OOSellDebt_of OOSellDebt_to OOSellDebt_OO].
  all: rewrite ?OO_iso.
  all: reflexivity.
Qed.

(** invstmt.go:1145-1151 *)
Definition OOSellMF_fields : flds :=
  FCons [] (bs "OO") false OO_ty
  (FCons [] (bs "SELLTYPE") false (TLeaf (LEnum enum_sellType))
  (FCons [] (bs "UNITTYPE") false (TLeaf (LEnum enum_unitType))
  (FCons [] (bs "SELLALL") false (TLeaf LBool) FNil))).
Definition OOSellMF_ty : ty := TStruct (bs "OOSELLMF") OOSellMF_fields.
Definition OOSellMF_to (r : OOSellMF) : interp OOSellMF_ty :=
  (OO_to (OOSellMF_OO r), (OOSellMF_SellType r, (OOSellMF_UnitType r, (OOSellMF_SellAll r, tt)))).
Definition OOSellMF_of (v : interp OOSellMF_ty) : OOSellMF :=
  let '(x0, (x1, (x2, (x3, tt)))) := v in
  mkOOSellMF (OO_of x0) x1 x2 x3.
Lemma OOSellMF_iso r : OOSellMF_of (OOSellMF_to r) = r.
Proof.
  destruct r as [f0 f1 f2 f3]; cbv beta iota delta [OOSellMF_of OOSellMF_to OOSellMF_OO OOSellMF_SellType OOSellMF_UnitType OOSellMF_SellAll].
  all: rewrite ?OO_iso.
  all: reflexivity.
Qed.

(** invstmt.go:1159-1163 *)
Definition OOSellOpt_fields : flds :=
  FCons [] (bs "OO") false OO_ty
  (FCons [] (bs "OPTSELLTYPE") false (TLeaf (LEnum enum_optSellType)) FNil).
Definition OOSellOpt_ty : ty := TStruct (bs "OOSELLOPT") OOSellOpt_fields.
Definition OOSellOpt_to (r : OOSellOpt) : interp OOSellOpt_ty :=
  (OO_to (OOSellOpt_OO r), (OOSellOpt_OptSellType r, tt)).
Definition OOSellOpt_of (v : interp OOSellOpt_ty) : OOSellOpt :=
  let '(x0, (x1, tt)) := v in
  mkOOSellOpt (OO_of x0) x1.
Lemma OOSellOpt_iso r : OOSellOpt_of (OOSellOpt_to r) = r.
Proof.
  destruct r as [f0 f1]; cbv beta iota delta [OOSellOpt_of OOSellOpt_to OOSellOpt_OO OOSellOpt_OptSellType].
  all: rewrite ?OO_iso.
  all: reflexivity.
Qed.

(** invstmt.go:1172-1176 *)
Definition OOSellOther_fields : flds :=
  FCons [] (bs "OO") false OO_ty
  (FCons [] (bs "UNITTYPE") false (TLeaf (LEnum enum_unitType)) FNil).
Definition OOSellOther_ty : ty := TStruct (bs "OOSELLOTHER") OOSellOther_fields.
Definition OOSellOther_to (r : OOSellOther) : interp OOSellOther_ty :=
  (OO_to (OOSellOther_OO r), (OOSellOther_UnitType r, tt)).
Definition OOSellOther_of (v : interp OOSellOther_ty) : OOSellOther :=
  let '(x0, (x1, tt)) := v in
  mkOOSellOther (OO_of x0) x1.
Lemma OOSellOther_iso r : OOSellOther_of (OOSellOther_to r) = r.
Proof.
  destruct r as [f0 f1]; cbv beta iota delta [OOSellOther_of OOSellOther_to OOSellOther_OO OOSellOther_UnitType].
  all: rewrite ?OO_iso.
  all: reflexivity.
Qed.

(** invstmt.go:1184-1188 *)
Definition OOSellStock_fields : flds :=
  FCons [] (bs "OO") false OO_ty
  (FCons [] (bs "SELLTYPE") false (TLeaf (LEnum enum_sellType)) FNil).
Definition OOSellStock_ty : ty := TStruct (bs "OOSELLSTOCK") OOSellStock_fields.
Definition OOSellStock_to (r : OOSellStock) : interp OOSellStock_ty :=
  (OO_to (OOSellStock_OO r), (OOSellStock_SellType r, tt)).
Definition OOSellStock_of (v : interp OOSellStock_ty) : OOSellStock :=
  let '(x0, (x1, tt)) := v in
  mkOOSellStock (OO_of x0) x1.
Lemma OOSellStock_iso r : OOSellStock_of (OOSellStock_to r) = r.
Proof.
  destruct r as [f0 f1]; cbv beta iota delta [OOSellStock_of OOSellStock_to OOSellStock_OO OOSellStock_SellType].
  all: rewrite ?OO_iso.
  all: reflexivity.
Qed.

(** invstmt.go:1197-1203 *)
Definition OOSwitchMF_fields : flds :=
  FCons [] (bs "OO") false OO_ty
  (FCons [] (bs "SECID") false SecurityID_ty
  (FCons [] (bs "UNITTYPE") false (TLeaf (LEnum enum_unitType))
  (FCons [] (bs "SWITCHALL") false (TLeaf LBool) FNil))).
Definition OOSwitchMF_ty : ty := TStruct (bs "SWITCHMF") OOSwitchMF_fields.
Definition OOSwitchMF_to (r : OOSwitchMF) : interp OOSwitchMF_ty :=
  (OO_to (OOSwitchMF_OO r), (SecurityID_to (OOSwitchMF_SecID r), (OOSwitchMF_UnitType r, (OOSwitchMF_SwitchAll r, tt)))).
Definition OOSwitchMF_of (v : interp OOSwitchMF_ty) : OOSwitchMF :=
  let '(x0, (x1, (x2, (x3, tt)))) := v in
  mkOOSwitchMF (OO_of x0) (SecurityID_of x1) x2 x3.
Lemma OOSwitchMF_iso r : OOSwitchMF_of (OOSwitchMF_to r) = r.
Proof.
  destruct r as [f0 f1 f2 f3]; cbv beta iota delta [OOSwitchMF_of OOSwitchMF_to OOSwitchMF_OO OOSwitchMF_SecID OOSwitchMF_UnitType OOSwitchMF_SwitchAll].
  all: rewrite ?OO_iso, ?SecurityID_iso.
  all: reflexivity.
Qed.

(** invstmt.go:1364-1381 *)
Definition ContribSecurity_fields : flds :=
  FCons [] (bs "SECID") false SecurityID_ty
  (FCons [] (bs "PRETAXCONTRIBPCT") true (TLeaf LAmount)
  (FCons [] (bs "PRETAXCONTRIBAMT") true (TLeaf LAmount)
  (FCons [] (bs "AFTERTAXCONTRIBPCT") true (TLeaf LAmount)
  (FCons [] (bs "AFTERTAXCONTRIBAMT") true (TLeaf LAmount)
  (FCons [] (bs "MATCHCONTRIBPCT") true (TLeaf LAmount)
  (FCons [] (bs "MATCHCONTRIBAMT") true (TLeaf LAmount)
  (FCons [] (bs "PROFITSHARINGCONTRIBPCT") true (TLeaf LAmount)
  (FCons [] (bs "PROFITSHARINGCONTRIBAMT") true (TLeaf LAmount)
  (FCons [] (bs "ROLLOVERCONTRIBPCT") true (TLeaf LAmount)
  (FCons [] (bs "ROLLOVERCONTRIBAMT") true (TLeaf LAmount)
  (FCons [] (bs "OTHERVESTPCT") true (TLeaf LAmount)
  (FCons [] (bs "OTHERVESTAMT") true (TLeaf LAmount)
  (FCons [] (bs "OTHERNONVESTPCT") true (TLeaf LAmount)
  (FCons [] (bs "OTHERNONVESTAMT") true (TLeaf LAmount) FNil)))))))))))))).
Definition ContribSecurity_ty : ty := TStruct (bs "CONTRIBSECURITY") ContribSecurity_fields.
Definition ContribSecurity_to (r : ContribSecurity) : interp ContribSecurity_ty :=
  (SecurityID_to (ContribSecurity_SecID r), (ContribSecurity_PreTaxContribPct r, (ContribSecurity_PreTaxContribAmt r, (ContribSecurity_AfterTaxContribPct r, (ContribSecurity_AfterTaxContribAmt r, (ContribSecurity_MatchContribPct r, (ContribSecurity_MatchContribAmt r, (ContribSecurity_ProfitSharingContribPct r, (ContribSecurity_ProfitSharingContribAmt r, (ContribSecurity_RolloverContribPct r, (ContribSecurity_RolloverContribAmt r, (ContribSecurity_OtherVestPct r, (ContribSecurity_OtherVestAmt r, (ContribSecurity_OtherNonVestPct r, (ContribSecurity_OtherNonVestAmt r, tt))))))))))))))).
Definition ContribSecurity_of (v : interp ContribSecurity_ty) : ContribSecurity :=
  let '(x0, (x1, (x2, (x3, (x4, (x5, (x6, (x7, (x8, (x9, (x10, (x11, (x12, (x13, (x14, tt))))))))))))))) := v in
  mkContribSecurity (SecurityID_of x0) x1 x2 x3 x4 x5 x6 x7 x8 x9 x10 x11 x12 x13 x14.
Lemma ContribSecurity_iso r : ContribSecurity_of (ContribSecurity_to r) = r.
Proof.
  destruct r as [f0 f1 f2 f3 f4 f5 f6 f7 f8 f9 f10 f11 f12 f13 f14]; cbv beta iota delta [ContribSecurity_of ContribSecurity_to ContribSecurity_SecID ContribSecurity_PreTaxContribPct ContribSecurity_PreTaxContribAmt ContribSecurity_AfterTaxContribPct ContribSecurity_AfterTaxContribAmt ContribSecurity_MatchContribPct ContribSecurity_MatchContribAmt ContribSecurity_ProfitSharingContribPct ContribSecurity_ProfitSharingContribAmt ContribSecurity_RolloverContribPct ContribSecurity_RolloverContribAmt ContribSecurity_OtherVestPct ContribSecurity_OtherVestAmt ContribSecurity_OtherNonVestPct ContribSecurity_OtherNonVestAmt].
  all: rewrite ?SecurityID_iso.
  all: reflexivity.
Qed.

(** invstmt.go:1385-1389 *)
Definition VestInfo_fields : flds :=
  FCons [] (bs "VESTDATE") true (TPtr (TLeaf LDate))
  (FCons [] (bs "VESTPCT") false (TLeaf LAmount) FNil).
Definition VestInfo_ty : ty := TStruct (bs "VESTINFO") VestInfo_fields.
Definition VestInfo_to (r : VestInfo) : interp VestInfo_ty :=
  (VestInfo_VestDate r, (VestInfo_VestPct r, tt)).
Definition VestInfo_of (v : interp VestInfo_ty) : VestInfo :=
  let '(x0, (x1, tt)) := v in
  mkVestInfo x0 x1.
Lemma VestInfo_iso r : VestInfo_of (VestInfo_to r) = r.
Proof.
  destruct r as [f0 f1]; cbv beta iota delta [VestInfo_of VestInfo_to VestInfo_VestDate VestInfo_VestPct].
  all: reflexivity.
Qed.

(** invstmt.go:1392-1409 *)
Definition LoanInfo_fields : flds :=
  FCons [] (bs "LOANID") false (TLeaf LString)
  (FCons [] (bs "LOANDESC") true (TLeaf LString)
  (FCons [] (bs "INITIALLOANBAL") true (TLeaf LAmount)
  (FCons [] (bs "LOANSTARTDATE") true (TPtr (TLeaf LDate))
  (FCons [] (bs "CURRENTLOANBAL") false (TLeaf LAmount)
  (FCons [] (bs "DTASOF") false (TPtr (TLeaf LDate))
  (FCons [] (bs "LOANRATE") true (TLeaf LAmount)
  (FCons [] (bs "LOANPMTAMT") true (TLeaf LAmount)
  (FCons [] (bs "LOANPMTFREQ") true (TLeaf (LEnum enum_loanPmtFreq))
  (FCons [] (bs "LOANPMTSINITIAL") true (TLeaf LInt)
  (FCons [] (bs "LOANPMTSREMAINING") true (TLeaf LInt)
  (FCons [] (bs "LOANMATURITYDATE") true (TPtr (TLeaf LDate))
  (FCons [] (bs "LOANTOTALPROJINTEREST") true (TLeaf LAmount)
  (FCons [] (bs "LOANINTERESTTODATE") true (TLeaf LAmount)
  (FCons [] (bs "LOANNEXTPMTDATE") true (TPtr (TLeaf LDate)) FNil)))))))))))))).
Definition LoanInfo_ty : ty := TStruct (bs "VESTINFO") LoanInfo_fields.
Definition LoanInfo_to (r : LoanInfo) : interp LoanInfo_ty :=
  (LoanInfo_LoanID r, (LoanInfo_LoanDesc r, (LoanInfo_InitialLoanBal r, (LoanInfo_LoanStartDate r, (LoanInfo_CurrentLoanBal r, (LoanInfo_DtAsOf r, (LoanInfo_LoanRate r, (LoanInfo_LoanPmtAmt r, (LoanInfo_LoanPmtFreq r, (LoanInfo_LoanPmtsInitial r, (LoanInfo_LoanPmtsRemaining r, (LoanInfo_LoanMaturityDate r, (LoanInfo_LoanTotalProjInterest r, (LoanInfo_LoanInterestToDate r, (LoanInfo_LoanExtPmtDate r, tt))))))))))))))).
Definition LoanInfo_of (v : interp LoanInfo_ty) : LoanInfo :=
  let '(x0, (x1, (x2, (x3, (x4, (x5, (x6, (x7, (x8, (x9, (x10, (x11, (x12, (x13, (x14, tt))))))))))))))) := v in
  mkLoanInfo x0 x1 x2 x3 x4 x5 x6 x7 x8 x9 x10 x11 x12 x13 x14.
Lemma LoanInfo_iso r : LoanInfo_of (LoanInfo_to r) = r.
Proof.
  destruct r as [f0 f1 f2 f3 f4 f5 f6 f7 f8 f9 f10 f11 f12 f13 f14]; cbv beta iota delta [LoanInfo_of LoanInfo_to LoanInfo_LoanID LoanInfo_LoanDesc LoanInfo_InitialLoanBal LoanInfo_LoanStartDate LoanInfo_CurrentLoanBal LoanInfo_DtAsOf LoanInfo_LoanRate LoanInfo_LoanPmtAmt LoanInfo_LoanPmtFreq LoanInfo_LoanPmtsInitial LoanInfo_LoanPmtsRemaining LoanInfo_LoanMaturityDate LoanInfo_LoanTotalProjInterest LoanInfo_LoanInterestToDate LoanInfo_LoanExtPmtDate].
  all: reflexivity.
Qed.

(** invstmt.go:1414-1424 *)
Definition Inv401KSummaryAggregate_fields : flds :=
  FCons [] (bs "PRETAX") true (TLeaf LAmount)
  (FCons [] (bs "AFTERTAX") true (TLeaf LAmount)
  (FCons [] (bs "MATCH") true (TLeaf LAmount)
  (FCons [] (bs "PROFITSHARING") true (TLeaf LAmount)
  (FCons [] (bs "ROLLOVER") true (TLeaf LAmount)
  (FCons [] (bs "OTHERVEST") true (TLeaf LAmount)
  (FCons [] (bs "OTHERNONVEST") true (TLeaf LAmount)
  (FCons [] (bs "TOTAL") false (TLeaf LAmount) FNil))))))).
Definition Inv401KSummaryAggregate_ty : ty := TStruct [] Inv401KSummaryAggregate_fields.
Definition Inv401KSummaryAggregate_to (r : Inv401KSummaryAggregate) : interp Inv401KSummaryAggregate_ty :=
  (Inv401KSummaryAggregate_PreTax r, (Inv401KSummaryAggregate_AfterTax r, (Inv401KSummaryAggregate_Match r, (Inv401KSummaryAggregate_ProfitSharing r, (Inv401KSummaryAggregate_Rollover r, (Inv401KSummaryAggregate_OtherVest r, (Inv401KSummaryAggregate_OtherNonVest r, (Inv401KSummaryAggregate_Total r, tt)))))))).
Definition Inv401KSummaryAggregate_of (v : interp Inv401KSummaryAggregate_ty) : Inv401KSummaryAggregate :=
  let '(x0, (x1, (x2, (x3, (x4, (x5, (x6, (x7, tt)))))))) := v in
  mkInv401KSummaryAggregate x0 x1 x2 x3 x4 x5 x6 x7.
Lemma Inv401KSummaryAggregate_iso r : Inv401KSummaryAggregate_of (Inv401KSummaryAggregate_to r) = r.
Proof.
  destruct r as [f0 f1 f2 f3 f4 f5 f6 f7]; cbv beta iota delta [Inv401KSummaryAggregate_of Inv401KSummaryAggregate_to Inv401KSummaryAggregate_PreTax Inv401KSummaryAggregate_AfterTax Inv401KSummaryAggregate_Match Inv401KSummaryAggregate_ProfitSharing Inv401KSummaryAggregate_Rollover Inv401KSummaryAggregate_OtherVest Inv401KSummaryAggregate_OtherNonVest Inv401KSummaryAggregate_Total].
  all: reflexivity.
Qed.

(** invstmt.go:1428-1435 *)
Definition Inv401KSummaryPeriod_fields : flds :=
  FCons [] (bs "DTSTART") false (TLeaf LDate)
  (FCons [] (bs "DTEND") false (TLeaf LDate)
  (FCons [] (bs "CONTRIBUTIONS") true (TPtr Inv401KSummaryAggregate_ty)
  (FCons [] (bs "WITHDRAWLS") true (TPtr Inv401KSummaryAggregate_ty)
  (FCons [] (bs "EARNINGS") true (TPtr Inv401KSummaryAggregate_ty) FNil)))).
Definition Inv401KSummaryPeriod_ty : ty := TStruct [] Inv401KSummaryPeriod_fields.
Definition Inv401KSummaryPeriod_to (r : Inv401KSummaryPeriod) : interp Inv401KSummaryPeriod_ty :=
  (Inv401KSummaryPeriod_DtStart r, (Inv401KSummaryPeriod_DtEnd r, (option_map Inv401KSummaryAggregate_to (Inv401KSummaryPeriod_Contributions r), (option_map Inv401KSummaryAggregate_to (Inv401KSummaryPeriod_Withdrawls r), (option_map Inv401KSummaryAggregate_to (Inv401KSummaryPeriod_Earnings r), tt))))).
Definition Inv401KSummaryPeriod_of (v : interp Inv401KSummaryPeriod_ty) : Inv401KSummaryPeriod :=
  let '(x0, (x1, (x2, (x3, (x4, tt))))) := v in
  mkInv401KSummaryPeriod x0 x1 (option_map Inv401KSummaryAggregate_of x2) (option_map Inv401KSummaryAggregate_of x3) (option_map Inv401KSummaryAggregate_of x4).
Lemma Inv401KSummaryPeriod_iso r : Inv401KSummaryPeriod_of (Inv401KSummaryPeriod_to r) = r.
Proof.
  destruct r as [f0 f1 f2 f3 f4]; cbv beta iota delta [Inv401KSummaryPeriod_of Inv401KSummaryPeriod_to Inv401KSummaryPeriod_DtStart Inv401KSummaryPeriod_DtEnd Inv401KSummaryPeriod_Contributions Inv401KSummaryPeriod_Withdrawls Inv401KSummaryPeriod_Earnings].
  all: rewrite ?(option_map_iso _ _ Inv401KSummaryAggregate_iso), ?Inv401KSummaryAggregate_iso.
  all: reflexivity.
Qed.

(** invstmt.go:1439-1463 *)
Definition Inv401K_fields : flds :=
  FCons [] (bs "EMPLOYERNAME") false (TLeaf LString)
  (FCons [] (bs "PLANID") true (TLeaf LString)
  (FCons [] (bs "PLANJOINDATE") true (TPtr (TLeaf LDate))
  (FCons [] (bs "EMPLOYERCONTACTINFO") true (TLeaf LString)
  (FCons [] (bs "BROKERCONTACTINFO") true (TLeaf LString)
  (FCons [] (bs "DEFERPCTPRETAX") true (TLeaf LAmount)
  (FCons [] (bs "DEFERPCTAFTERTAX") true (TLeaf LAmount)
  (FCons [bs "MATCHINFO"] (bs "MATCHPCT") true (TLeaf LAmount)
  (FCons [bs "MATCHINFO"] (bs "MAXMATCHAMT") true (TLeaf LAmount)
  (FCons [bs "MATCHINFO"] (bs "MAXMATCHPCT") true (TLeaf LAmount)
  (FCons [bs "MATCHINFO"] (bs "STARTOFYEAR") true (TPtr (TLeaf LDate))
  (FCons [bs "MATCHINFO"] (bs "BASEMATCHAMT") false (TLeaf LAmount)
  (FCons [bs "MATCHINFO"] (bs "BASEMATCHPCT") false (TLeaf LAmount)
  (FCons [bs "CONTRIBINTO"] (bs "CONTRIBSECURITY") false (TSlice ContribSecurity_ty)
  (FCons [] (bs "CURRENTVESTPCT") true (TLeaf LAmount)
  (FCons [] (bs "VESTINFO") true (TSlice VestInfo_ty)
  (FCons [] (bs "LOANINFO") true (TSlice LoanInfo_ty)
  (FCons [bs "INV401KSUMMARY"] (bs "YEARTODATE") false Inv401KSummaryPeriod_ty
  (FCons [bs "INV401KSUMMARY"] (bs "INCEPTODATE") true (TPtr Inv401KSummaryPeriod_ty)
  (FCons [bs "INV401KSUMMARY"] (bs "PERIODTODATE") true (TPtr Inv401KSummaryPeriod_ty) FNil))))))))))))))))))).
Definition Inv401K_ty : ty := TStruct (bs "INV401K") Inv401K_fields.
Definition Inv401K_to (r : Inv401K) : interp Inv401K_ty :=
  (Inv401K_EmployerName r, (Inv401K_PlanID r, (Inv401K_PlanJoinDate r, (Inv401K_EmployerContactInfo r, (Inv401K_BrokerContactInfo r, (Inv401K_DeferPctPreTax r, (Inv401K_DeferPctAfterTax r, (Inv401K_MatchPct r, (Inv401K_MaxMatchAmt r, (Inv401K_MaxMatchPct r, (Inv401K_StartOfYear r, (Inv401K_BaseMatchAmt r, (Inv401K_BaseMatchPct r, (map ContribSecurity_to (Inv401K_ContribInfo r), (Inv401K_CurrentVestPct r, (map VestInfo_to (Inv401K_VestInfo r), (map LoanInfo_to (Inv401K_LoanInfo r), (Inv401KSummaryPeriod_to (Inv401K_YearToDateSummary r), (option_map Inv401KSummaryPeriod_to (Inv401K_InceptToDateSummary r), (option_map Inv401KSummaryPeriod_to (Inv401K_PeriodToDate r), tt)))))))))))))))))))).
Definition Inv401K_of (v : interp Inv401K_ty) : Inv401K :=
  let '(x0, (x1, (x2, (x3, (x4, (x5, (x6, (x7, (x8, (x9, (x10, (x11, (x12, (x13, (x14, (x15, (x16, (x17, (x18, (x19, tt)))))))))))))))))))) := v in
  mkInv401K x0 x1 x2 x3 x4 x5 x6 x7 x8 x9 x10 x11 x12 (map ContribSecurity_of x13) x14 (map VestInfo_of x15) (map LoanInfo_of x16) (Inv401KSummaryPeriod_of x17) (option_map Inv401KSummaryPeriod_of x18) (option_map Inv401KSummaryPeriod_of x19).
Lemma Inv401K_iso r : Inv401K_of (Inv401K_to r) = r.
Proof.
  destruct r as [f0 f1 f2 f3 f4 f5 f6 f7 f8 f9 f10 f11 f12 f13 f14 f15 f16 f17 f18 f19]; cbv beta iota delta [Inv401K_of Inv401K_to Inv401K_EmployerName Inv401K_PlanID Inv401K_PlanJoinDate Inv401K_EmployerContactInfo Inv401K_BrokerContactInfo Inv401K_DeferPctPreTax Inv401K_DeferPctAfterTax Inv401K_MatchPct Inv401K_MaxMatchAmt Inv401K_MaxMatchPct Inv401K_StartOfYear Inv401K_BaseMatchAmt Inv401K_BaseMatchPct Inv401K_ContribInfo Inv401K_CurrentVestPct Inv401K_VestInfo Inv401K_LoanInfo Inv401K_YearToDateSummary Inv401K_InceptToDateSummary Inv401K_PeriodToDate].
  all: rewrite ?(map_iso _ _ ContribSecurity_iso), ?(map_iso _ _ LoanInfo_iso), ?(map_iso _ _ VestInfo_iso), ?(option_map_iso _ _ Inv401KSummaryPeriod_iso), ?ContribSecurity_iso, ?Inv401KSummaryPeriod_iso, ?LoanInfo_iso, ?VestInfo_iso.
  all: reflexivity.
Qed.

(** invstmt.go:1467-1479 *)
Definition Inv401KBal_fields : flds :=
  FCons [] (bs "CASHBAL") true (TLeaf LAmount)
  (FCons [] (bs "PRETAX") true (TLeaf LAmount)
  (FCons [] (bs "AFTERTAX") true (TLeaf LAmount)
  (FCons [] (bs "MATCH") true (TLeaf LAmount)
  (FCons [] (bs "PROFITSHARING") true (TLeaf LAmount)
  (FCons [] (bs "ROLLOVER") true (TLeaf LAmount)
  (FCons [] (bs "OTHERVEST") true (TLeaf LAmount)
  (FCons [] (bs "OTHERNONVEST") true (TLeaf LAmount)
  (FCons [] (bs "TOTAL") false (TLeaf LAmount)
  (FCons [bs "BALLIST"] (bs "BAL") true (TSlice Balance_ty) FNil))))))))).
Definition Inv401KBal_ty : ty := TStruct (bs "INV401KBAL") Inv401KBal_fields.
Definition Inv401KBal_to (r : Inv401KBal) : interp Inv401KBal_ty :=
  (Inv401KBal_CashBal r, (Inv401KBal_PreTax r, (Inv401KBal_AfterTax r, (Inv401KBal_Match r, (Inv401KBal_ProfitSharing r, (Inv401KBal_Rollover r, (Inv401KBal_OtherVest r, (Inv401KBal_OtherNonVest r, (Inv401KBal_Total r, (map Balance_to (Inv401KBal_BalList r), tt)))))))))).
Definition Inv401KBal_of (v : interp Inv401KBal_ty) : Inv401KBal :=
  let '(x0, (x1, (x2, (x3, (x4, (x5, (x6, (x7, (x8, (x9, tt)))))))))) := v in
  mkInv401KBal x0 x1 x2 x3 x4 x5 x6 x7 x8 (map Balance_of x9).
Lemma Inv401KBal_iso r : Inv401KBal_of (Inv401KBal_to r) = r.
Proof.
  destruct r as [f0 f1 f2 f3 f4 f5 f6 f7 f8 f9]; cbv beta iota delta [Inv401KBal_of Inv401KBal_to Inv401KBal_CashBal Inv401KBal_PreTax Inv401KBal_AfterTax Inv401KBal_Match Inv401KBal_ProfitSharing Inv401KBal_Rollover Inv401KBal_OtherVest Inv401KBal_OtherNonVest Inv401KBal_Total Inv401KBal_BalList].
  all: rewrite ?(map_iso _ _ Balance_iso), ?Balance_iso.
  all: reflexivity.
Qed.

(** invstmt.go:945-992 and 995-1031: the names accepted and the names written. *)
Definition Position_alts : alts :=
  ACons (bs "POSDEBT") (bs "POSDEBT") DebtPosition_ty
  (ACons (bs "POSMF") (bs "POSMF") MFPosition_ty
  (ACons (bs "POSOPT") (bs "POSOPT") OptPosition_ty
  (ACons (bs "POSOTHER") (bs "POSOTHER") OtherPosition_ty
  (ACons (bs "POSSTOCK") (bs "POSSTOCK") StockPosition_ty ANil)))).
Definition Position_to (r : Position) : interp_alts Position_alts :=
  match r with
  | Position_DebtPosition x => inl (DebtPosition_to x)
  | Position_MFPosition x => inr (inl (MFPosition_to x))
  | Position_OptPosition x => inr (inr (inl (OptPosition_to x)))
  | Position_OtherPosition x => inr (inr (inr (inl (OtherPosition_to x))))
  | Position_StockPosition x => inr (inr (inr (inr (inl (StockPosition_to x)))))
  end.
Definition Position_of (v0 : interp_alts Position_alts) : Position :=
  match v0 with inl x => Position_DebtPosition (DebtPosition_of x) | inr v1 =>
  match v1 with inl x => Position_MFPosition (MFPosition_of x) | inr v2 =>
  match v2 with inl x => Position_OptPosition (OptPosition_of x) | inr v3 =>
  match v3 with inl x => Position_OtherPosition (OtherPosition_of x) | inr v4 =>
  match v4 with inl x => Position_StockPosition (StockPosition_of x) | inr v5 =>
  match v5 with end end end end end end.
Lemma Position_iso r : Position_of (Position_to r) = r.
Proof.
  destruct r; cbv beta iota delta [Position_of Position_to ].
  all: rewrite ?DebtPosition_iso, ?MFPosition_iso, ?OptPosition_iso, ?OtherPosition_iso, ?StockPosition_iso.
  all: reflexivity.
Qed.

(** invstmt.go:1214-1297 and 1300-1360: the names accepted and the names written. *)
Definition OpenOrder_alts : alts :=
  ACons (bs "OOBUYDEBT") (bs "OOBUYDEBT") OOBuyDebt_ty
  (ACons (bs "OOBUYMF") (bs "OOBUYMF") OOBuyMF_ty
  (ACons (bs "OOBUYOPT") (bs "OOBUYOPT") OOBuyOpt_ty
  (ACons (bs "OOBUYOTHER") (bs "OOBUYOTHER") OOBuyOther_ty
  (ACons (bs "OOBUYSTOCK") (bs "OOBUYSTOCK") OOBuyStock_ty
  (ACons (bs "OOSELLDEBT") (bs "OOSELLDEBT") OOSellDebt_ty
  (ACons (bs "OOSELLMF") (bs "OOSELLMF") OOSellMF_ty
  (ACons (bs "OOSELLOPT") (bs "OOSELLOPT") OOSellOpt_ty
  (ACons (bs "OOSELLOTHER") (bs "OOSELLOTHER") OOSellOther_ty
  (ACons (bs "OOSELLSTOCK") (bs "OOSELLSTOCK") OOSellStock_ty
  (ACons (bs "SWITCHMF") (bs "SWITCHMF") OOSwitchMF_ty ANil)))))))))).
Definition OpenOrder_to (r : OpenOrder) : interp_alts OpenOrder_alts :=
  match r with
  | OpenOrder_OOBuyDebt x => inl (OOBuyDebt_to x)
  | OpenOrder_OOBuyMF x => inr (inl (OOBuyMF_to x))
  | OpenOrder_OOBuyOpt x => inr (inr (inl (OOBuyOpt_to x)))
  | OpenOrder_OOBuyOther x => inr (inr (inr (inl (OOBuyOther_to x))))
  | OpenOrder_OOBuyStock x => inr (inr (inr (inr (inl (OOBuyStock_to x)))))
  | OpenOrder_OOSellDebt x => inr (inr (inr (inr (inr (inl (OOSellDebt_to x))))))
  | OpenOrder_OOSellMF x => inr (inr (inr (inr (inr (inr (inl (OOSellMF_to x)))))))
  | OpenOrder_OOSellOpt x => inr (inr (inr (inr (inr (inr (inr (inl (OOSellOpt_to x))))))))
  | OpenOrder_OOSellOther x => inr (inr (inr (inr (inr (inr (inr (inr (inl (OOSellOther_to x)))))))))
  | OpenOrder_OOSellStock x => inr (inr (inr (inr (inr (inr (inr (inr (inr (inl (OOSellStock_to x))))))))))
  | OpenOrder_OOSwitchMF x => inr (inr (inr (inr (inr (inr (inr (inr (inr (inr (inl (OOSwitchMF_to x)))))))))))
  end.
Definition OpenOrder_of (v0 : interp_alts OpenOrder_alts) : OpenOrder :=
  match v0 with inl x => OpenOrder_OOBuyDebt (OOBuyDebt_of x) | inr v1 =>
  match v1 with inl x => OpenOrder_OOBuyMF (OOBuyMF_of x) | inr v2 =>
  match v2 with inl x => OpenOrder_OOBuyOpt (OOBuyOpt_of x) | inr v3 =>
  match v3 with inl x => OpenOrder_OOBuyOther (OOBuyOther_of x) | inr v4 =>
  match v4 with inl x => OpenOrder_OOBuyStock (OOBuyStock_of x) | inr v5 =>
  match v5 with inl x => OpenOrder_OOSellDebt (OOSellDebt_of x) | inr v6 =>
  match v6 with inl x => OpenOrder_OOSellMF (OOSellMF_of x) | inr v7 =>
  match v7 with inl x => OpenOrder_OOSellOpt (OOSellOpt_of x) | inr v8 =>
  match v8 with inl x => OpenOrder_OOSellOther (OOSellOther_of x) | inr v9 =>
  match v9 with inl x => OpenOrder_OOSellStock (OOSellStock_of x) | inr v10 =>
  match v10 with inl x => OpenOrder_OOSwitchMF (OOSwitchMF_of x) | inr v11 =>
  match v11 with end end end end end end end end end end end end.
Lemma OpenOrder_iso r : OpenOrder_of (OpenOrder_to r) = r.
Proof.
  destruct r; cbv beta iota delta [OpenOrder_of OpenOrder_to ].
  all: rewrite ?OOBuyDebt_iso, ?OOBuyMF_iso, ?OOBuyOpt_iso, ?OOBuyOther_iso, ?OOBuyStock_iso, ?OOSellDebt_iso, ?OOSellMF_iso, ?OOSellOpt_iso, ?OOSellOther_iso, ?OOSellStock_iso, ?OOSwitchMF_iso.
  all: reflexivity.
Qed.

(** invstmt.go:1485-1501 *)
Definition InvStatementResponse_fields : flds :=
  FCons [] (bs "TRNUID") false (TLeaf LUID)
  (FCons [] (bs "STATUS") false Status_ty
  (FCons [] (bs "CLTCOOKIE") true (TLeaf LString)
  (FCons [bs "INVSTMTRS"] (bs "DTASOF") false (TLeaf LDate)
  (FCons [bs "INVSTMTRS"] (bs "CURDEF") false (TLeaf LCurr)
  (FCons [bs "INVSTMTRS"] (bs "INVACCTFROM") false InvAcct_ty
  (FCons [bs "INVSTMTRS"] (bs "INVTRANLIST") true (TPtr InvTranList_ty)
  (FCons [bs "INVSTMTRS"] (bs "INVPOSLIST") true (TAltList (bs "INVPOSLIST") Position_alts)
  (FCons [bs "INVSTMTRS"] (bs "INVBAL") true (TPtr InvBalance_ty)
  (FCons [bs "INVSTMTRS"] (bs "INVOOLIST") true (TAltList (bs "INVOOLIST") OpenOrder_alts)
  (FCons [bs "INVSTMTRS"] (bs "MKTGINFO") true (TLeaf LString)
  (FCons [bs "INVSTMTRS"] (bs "INV401K") true (TPtr Inv401K_ty)
  (FCons [bs "INVSTMTRS"] (bs "INV401KBAL") true (TPtr Inv401KBal_ty) FNil)))))))))))).
Definition InvStatementResponse_ty : ty := TStruct (bs "INVSTMTTRNRS") InvStatementResponse_fields.
Definition InvStatementResponse_to (r : InvStatementResponse) : interp InvStatementResponse_ty :=
  (InvStatementResponse_TrnUID r, (Status_to (InvStatementResponse_Status r), (InvStatementResponse_CltCookie r, (InvStatementResponse_DtAsOf r, (InvStatementResponse_CurDef r, (InvAcct_to (InvStatementResponse_InvAcctFrom r), (option_map InvTranList_to (InvStatementResponse_InvTranList r), (map Position_to (InvStatementResponse_InvPosList r), (option_map InvBalance_to (InvStatementResponse_InvBal r), (map OpenOrder_to (InvStatementResponse_InvOOList r), (InvStatementResponse_MktgInfo r, (option_map Inv401K_to (InvStatementResponse_Inv401K r), (option_map Inv401KBal_to (InvStatementResponse_Inv401KBal r), tt))))))))))))).
Definition InvStatementResponse_of (v : interp InvStatementResponse_ty) : InvStatementResponse :=
  let '(x0, (x1, (x2, (x3, (x4, (x5, (x6, (x7, (x8, (x9, (x10, (x11, (x12, tt))))))))))))) := v in
  mkInvStatementResponse x0 (Status_of x1) x2 x3 x4 (InvAcct_of x5) (option_map InvTranList_of x6) (map Position_of x7) (option_map InvBalance_of x8) (map OpenOrder_of x9) x10 (option_map Inv401K_of x11) (option_map Inv401KBal_of x12).
Lemma InvStatementResponse_iso r : InvStatementResponse_of (InvStatementResponse_to r) = r.
Proof.
  destruct r as [f0 f1 f2 f3 f4 f5 f6 f7 f8 f9 f10 f11 f12]; cbv beta iota delta [InvStatementResponse_of InvStatementResponse_to InvStatementResponse_TrnUID InvStatementResponse_Status InvStatementResponse_CltCookie InvStatementResponse_DtAsOf InvStatementResponse_CurDef InvStatementResponse_InvAcctFrom InvStatementResponse_InvTranList InvStatementResponse_InvPosList InvStatementResponse_InvBal InvStatementResponse_InvOOList InvStatementResponse_MktgInfo InvStatementResponse_Inv401K InvStatementResponse_Inv401KBal].
  all: rewrite ?(map_iso _ _ OpenOrder_iso), ?(map_iso _ _ Position_iso), ?(option_map_iso _ _ Inv401K_iso), ?(option_map_iso _ _ Inv401KBal_iso), ?(option_map_iso _ _ InvBalance_iso), ?(option_map_iso _ _ InvTranList_iso), ?Inv401K_iso, ?Inv401KBal_iso, ?InvAcct_iso, ?InvBalance_iso, ?InvTranList_iso, ?OpenOrder_iso, ?Position_iso, ?Status_iso.
  all: reflexivity.
Qed.

(** profile.go:12-20 *)
Definition ProfileRequest_fields : flds :=
  FCons [] (bs "TRNUID") false (TLeaf LUID)
  (FCons [] (bs "CLTCOOKIE") true (TLeaf LString)
  (FCons [] (bs "TAN") true (TLeaf LString)
  (FCons [bs "PROFRQ"] (bs "CLIENTROUTING") false (TLeaf LString)
  (FCons [bs "PROFRQ"] (bs "DTPROFUP") false (TLeaf LDate) FNil)))).
Definition ProfileRequest_ty : ty := TStruct (bs "PROFTRNRQ") ProfileRequest_fields.
Definition ProfileRequest_to (r : ProfileRequest) : interp ProfileRequest_ty :=
  (ProfileRequest_TrnUID r, (ProfileRequest_CltCookie r, (ProfileRequest_TAN r, (ProfileRequest_ClientRouting r, (ProfileRequest_DtProfUp r, tt))))).
Definition ProfileRequest_of (v : interp ProfileRequest_ty) : ProfileRequest :=
  let '(x0, (x1, (x2, (x3, (x4, tt))))) := v in
  mkProfileRequest x0 x1 x2 x3 x4.
Lemma ProfileRequest_iso r : ProfileRequest_of (ProfileRequest_to r) = r.
Proof.
  destruct r as [f0 f1 f2 f3 f4]; cbv beta iota delta [ProfileRequest_of ProfileRequest_to ProfileRequest_TrnUID ProfileRequest_CltCookie ProfileRequest_TAN ProfileRequest_ClientRouting ProfileRequest_DtProfUp].
  all: reflexivity.
Qed.

(** profile.go:48-68 *)
Definition SignonInfo_fields : flds :=
  FCons [] (bs "SIGNONREALM") false (TLeaf LString)
  (FCons [] (bs "MIN") false (TLeaf LInt)
  (FCons [] (bs "MAX") false (TLeaf LInt)
  (FCons [] (bs "CHARTYPE") false (TLeaf (LEnum enum_charType))
  (FCons [] (bs "CASESEN") false (TLeaf LBool)
  (FCons [] (bs "SPECIAL") false (TLeaf LBool)
  (FCons [] (bs "SPACES") false (TLeaf LBool)
  (FCons [] (bs "PINCH") false (TLeaf LBool)
  (FCons [] (bs "CHGPINFIRST") false (TLeaf LBool)
  (FCons [] (bs "USERCRED1LABEL") true (TLeaf LString)
  (FCons [] (bs "USERCRED2LABEL") true (TLeaf LString)
  (FCons [] (bs "CLIENTUIDREQ") true (TLeaf LBool)
  (FCons [] (bs "AUTHTOKENFIRST") true (TLeaf LBool)
  (FCons [] (bs "AUTHTOKENLABEL") true (TLeaf LString)
  (FCons [] (bs "AUTHTOKENINFOURL") true (TLeaf LString)
  (FCons [] (bs "MFACHALLENGESUPT") true (TLeaf LBool)
  (FCons [] (bs "MFACHALLENGEFIRST") true (TLeaf LBool)
  (FCons [] (bs "ACCESSTOKENREQ") true (TLeaf LBool) FNil))))))))))))))))).
Definition SignonInfo_ty : ty := TStruct (bs "SIGNONINFO") SignonInfo_fields.
Definition SignonInfo_to (r : SignonInfo) : interp SignonInfo_ty :=
  (SignonInfo_SignonRealm r, (SignonInfo_Min r, (SignonInfo_Max r, (SignonInfo_CharType r, (SignonInfo_CaseSen r, (SignonInfo_Special r, (SignonInfo_Spaces r, (SignonInfo_PinCh r, (SignonInfo_ChgPinFirst r, (SignonInfo_UserCred1Label r, (SignonInfo_UserCred2Label r, (SignonInfo_ClientUIDReq r, (SignonInfo_AuthTokenFirst r, (SignonInfo_AuthTokenLabel r, (SignonInfo_AuthTokenInfoURL r, (SignonInfo_MFAChallengeSupt r, (SignonInfo_MFAChallengeFIRST r, (SignonInfo_AccessTokenReq r, tt)))))))))))))))))).
Definition SignonInfo_of (v : interp SignonInfo_ty) : SignonInfo :=
  let '(x0, (x1, (x2, (x3, (x4, (x5, (x6, (x7, (x8, (x9, (x10, (x11, (x12, (x13, (x14, (x15, (x16, (x17, tt)))))))))))))))))) := v in
  mkSignonInfo x0 x1 x2 x3 x4 x5 x6 x7 x8 x9 x10 x11 x12 x13 x14 x15 x16 x17.
Lemma SignonInfo_iso r : SignonInfo_of (SignonInfo_to r) = r.
Proof.
  destruct r as [f0 f1 f2 f3 f4 f5 f6 f7 f8 f9 f10 f11 f12 f13 f14 f15 f16 f17]; cbv beta iota delta [SignonInfo_of SignonInfo_to SignonInfo_SignonRealm SignonInfo_Min SignonInfo_Max SignonInfo_CharType SignonInfo_CaseSen SignonInfo_Special SignonInfo_Spaces SignonInfo_PinCh SignonInfo_ChgPinFirst SignonInfo_UserCred1Label SignonInfo_UserCred2Label SignonInfo_ClientUIDReq SignonInfo_AuthTokenFirst SignonInfo_AuthTokenLabel SignonInfo_AuthTokenInfoURL SignonInfo_MFAChallengeSupt SignonInfo_MFAChallengeFIRST SignonInfo_AccessTokenReq].
  all: reflexivity.
Qed.

(** profile.go:72-86 *)
Definition MessageSet_fields : flds :=
  FCons [bs "MSGSETCORE"] (bs "VER") false (TLeaf LInt)
  (FCons [bs "MSGSETCORE"] (bs "URL") false (TLeaf LString)
  (FCons [bs "MSGSETCORE"] (bs "OFXSEC") false (TLeaf (LEnum enum_ofxSec))
  (FCons [bs "MSGSETCORE"] (bs "TRANSPSEC") false (TLeaf LBool)
  (FCons [bs "MSGSETCORE"] (bs "SIGNONREALM") false (TLeaf LString)
  (FCons [bs "MSGSETCORE"] (bs "LANGUAGE") false (TSlice (TLeaf LString))
  (FCons [bs "MSGSETCORE"] (bs "SYNCMODE") false (TLeaf (LEnum enum_syncMode))
  (FCons [bs "MSGSETCORE"] (bs "REFRESHSUPT") true (TLeaf LBool)
  (FCons [bs "MSGSETCORE"] (bs "RESPFILEER") false (TLeaf LBool)
  (FCons [bs "MSGSETCORE"] (bs "SPNAME") false (TLeaf LString) FNil))))))))).
Definition MessageSet_ty : ty := TStruct [] MessageSet_fields.
Definition MessageSet_to (r : MessageSet) : (str * interp_flds MessageSet_fields)%type :=
  (MessageSet_Name r, (MessageSet_Ver r, (MessageSet_URL r, (MessageSet_OfxSec r, (MessageSet_TranspSec r, (MessageSet_SignonRealm r, (MessageSet_Language r, (MessageSet_SyncMode r, (MessageSet_RefreshSupt r, (MessageSet_RespFileER r, (MessageSet_SpName r, tt))))))))))).
Definition MessageSet_of (v : (str * interp_flds MessageSet_fields)%type) : MessageSet :=
  let '(x0, (x1, (x2, (x3, (x4, (x5, (x6, (x7, (x8, (x9, (x10, tt))))))))))) := v in
  mkMessageSet x0 x1 x2 x3 x4 x5 x6 x7 x8 x9 x10.
Lemma MessageSet_iso r : MessageSet_of (MessageSet_to r) = r.
Proof.
  destruct r as [f0 f1 f2 f3 f4 f5 f6 f7 f8 f9 f10]; cbv beta iota delta [MessageSet_of MessageSet_to MessageSet_Name MessageSet_Ver MessageSet_URL MessageSet_OfxSec MessageSet_TranspSec MessageSet_SignonRealm MessageSet_Language MessageSet_SyncMode MessageSet_RefreshSupt MessageSet_RespFileER MessageSet_SpName].
  all: reflexivity.
Qed.

(** profile.go:164-186 *)
Definition ProfileResponse_fields : flds :=
  FCons [] (bs "TRNUID") false (TLeaf LUID)
  (FCons [] (bs "STATUS") false Status_ty
  (FCons [] (bs "CLTCOOKIE") true (TLeaf LString)
  (FCons [bs "PROFRS"] (bs "MSGSETLIST") false (TMsgSets MessageSet_fields)
  (FCons [bs "PROFRS"; bs "SIGNONINFOLIST"] (bs "SIGNONINFO") false (TSlice SignonInfo_ty)
  (FCons [bs "PROFRS"] (bs "DTPROFUP") false (TLeaf LDate)
  (FCons [bs "PROFRS"] (bs "FINAME") false (TLeaf LString)
  (FCons [bs "PROFRS"] (bs "ADDR1") false (TLeaf LString)
  (FCons [bs "PROFRS"] (bs "ADDR2") true (TLeaf LString)
  (FCons [bs "PROFRS"] (bs "ADDR3") true (TLeaf LString)
  (FCons [bs "PROFRS"] (bs "CITY") false (TLeaf LString)
  (FCons [bs "PROFRS"] (bs "STATE") false (TLeaf LString)
  (FCons [bs "PROFRS"] (bs "POSTALCODE") false (TLeaf LString)
  (FCons [bs "PROFRS"] (bs "COUNTRY") false (TLeaf LString)
  (FCons [bs "PROFRS"] (bs "CSPHONE") true (TLeaf LString)
  (FCons [bs "PROFRS"] (bs "TSPHONE") true (TLeaf LString)
  (FCons [bs "PROFRS"] (bs "FAXPHONE") true (TLeaf LString)
  (FCons [bs "PROFRS"] (bs "URL") true (TLeaf LString)
  (FCons [bs "PROFRS"] (bs "EMAIL") true (TLeaf LString) FNil)))))))))))))))))).
Definition ProfileResponse_ty : ty := TStruct (bs "PROFTRNRS") ProfileResponse_fields.
Definition ProfileResponse_to (r : ProfileResponse) : interp ProfileResponse_ty :=
  (ProfileResponse_TrnUID r, (Status_to (ProfileResponse_Status r), (ProfileResponse_CltCookie r, (map MessageSet_to (ProfileResponse_MessageSetList r), (map SignonInfo_to (ProfileResponse_SignonInfoList r), (ProfileResponse_DtProfUp r, (ProfileResponse_FiName r, (ProfileResponse_Addr1 r, (ProfileResponse_Addr2 r, (ProfileResponse_Addr3 r, (ProfileResponse_City r, (ProfileResponse_State r, (ProfileResponse_PostalCode r, (ProfileResponse_Country r, (ProfileResponse_CsPhone r, (ProfileResponse_TsPhone r, (ProfileResponse_FaxPhone r, (ProfileResponse_URL r, (ProfileResponse_Email r, tt))))))))))))))))))).
Definition ProfileResponse_of (v : interp ProfileResponse_ty) : ProfileResponse :=
  let '(x0, (x1, (x2, (x3, (x4, (x5, (x6, (x7, (x8, (x9, (x10, (x11, (x12, (x13, (x14, (x15, (x16, (x17, (x18, tt))))))))))))))))))) := v in
  mkProfileResponse x0 (Status_of x1) x2 (map MessageSet_of x3) (map SignonInfo_of x4) x5 x6 x7 x8 x9 x10 x11 x12 x13 x14 x15 x16 x17 x18.
Lemma ProfileResponse_iso r : ProfileResponse_of (ProfileResponse_to r) = r.
Proof.
  destruct r as [f0 f1 f2 f3 f4 f5 f6 f7 f8 f9 f10 f11 f12 f13 f14 f15 f16 f17 f18]; cbv beta iota delta [ProfileResponse_of ProfileResponse_to ProfileResponse_TrnUID ProfileResponse_Status ProfileResponse_CltCookie ProfileResponse_MessageSetList ProfileResponse_SignonInfoList ProfileResponse_DtProfUp ProfileResponse_FiName ProfileResponse_Addr1 ProfileResponse_Addr2 ProfileResponse_Addr3 ProfileResponse_City ProfileResponse_State ProfileResponse_PostalCode ProfileResponse_Country ProfileResponse_CsPhone ProfileResponse_TsPhone ProfileResponse_FaxPhone ProfileResponse_URL ProfileResponse_Email].
  all: rewrite ?(map_iso _ _ MessageSet_iso), ?(map_iso _ _ SignonInfo_iso), ?MessageSet_iso, ?SignonInfo_iso, ?Status_iso.
  all: reflexivity.
Qed.
