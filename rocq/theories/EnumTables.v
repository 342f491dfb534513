(** The enumeration tables of /repo/constants.go, transcribed by
    tools/gen_enums.py: for each type the value of the first and last constant
    used by its Valid method and the array of names. *)
From Verif Require Import GoStr Enums.
Local Open Scope N_scope.

(** ofxVersion, constants.go:17-89; names at line 34. *)
Definition enum_ofxVersion : enum := mkEnum (bs "ofxVersion") 1 11
  (map bs ["102"; "103"; "151"; "160"; "200"; "201"; "202"; "203"; "210"; "211"; "220"]%string).

(** acctType, constants.go:91-157; names at line 102. *)
Definition enum_acctType : enum := mkEnum (bs "acctType") 1 5
  (map bs ["CHECKING"; "SAVINGS"; "MONEYMRKT"; "CREDITLINE"; "CD"]%string).

(** trnType, constants.go:159-238; names at line 183. *)
Definition enum_trnType : enum := mkEnum (bs "trnType") 1 18
  (map bs ["CREDIT"; "DEBIT"; "INT"; "DIV"; "FEE"; "SRVCHG"; "DEP"; "ATM"; "POS"; "XFER"; "CHECK"; "PAYMENT"; "CASH"; "DIRECTDEP"; "DIRECTDEBIT"; "REPEATPMT"; "HOLD"; "OTHER"]%string).

(** imageType, constants.go:240-304; names at line 249. *)
Definition enum_imageType : enum := mkEnum (bs "imageType") 1 3
  (map bs ["STATEMENT"; "TRANSACTION"; "TAX"]%string).

(** imageRefType, constants.go:306-370; names at line 315. *)
Definition enum_imageRefType : enum := mkEnum (bs "imageRefType") 1 3
  (map bs ["OPAQUE"; "URL"; "FORMURL"]%string).

(** checkSup, constants.go:372-436; names at line 381. *)
Definition enum_checkSup : enum := mkEnum (bs "checkSup") 1 3
  (map bs ["FRONTONLY"; "BACKONLY"; "FRONTANDBACK"]%string).

(** correctAction, constants.go:438-501; names at line 446. *)
Definition enum_correctAction : enum := mkEnum (bs "correctAction") 1 2
  (map bs ["DELETE"; "REPLACE"]%string).

(** balType, constants.go:503-567; names at line 512. *)
Definition enum_balType : enum := mkEnum (bs "balType") 1 3
  (map bs ["DOLLAR"; "PERCENT"; "NUMBER"]%string).

(** inv401kSource, constants.go:569-637; names at line 582. *)
Definition enum_inv401kSource : enum := mkEnum (bs "inv401kSource") 1 7
  (map bs ["PRETAX"; "AFTERTAX"; "MATCH"; "PROFITSHARING"; "ROLLOVER"; "OTHERVEST"; "OTHERNONVEST"]%string).

(** subAcctType, constants.go:639-704; names at line 649. *)
Definition enum_subAcctType : enum := mkEnum (bs "subAcctType") 1 4
  (map bs ["CASH"; "MARGIN"; "SHORT"; "OTHER"]%string).

(** buyType, constants.go:706-769; names at line 714. *)
Definition enum_buyType : enum := mkEnum (bs "buyType") 1 2
  (map bs ["BUY"; "BUYTOCOVER"]%string).

(** optAction, constants.go:771-835; names at line 780. *)
Definition enum_optAction : enum := mkEnum (bs "optAction") 1 3
  (map bs ["EXERCISE"; "ASSIGN"; "EXPIRE"]%string).

(** tferAction, constants.go:837-900; names at line 845. *)
Definition enum_tferAction : enum := mkEnum (bs "tferAction") 1 2
  (map bs ["IN"; "OUT"]%string).

(** posType, constants.go:902-965; names at line 910. *)
Definition enum_posType : enum := mkEnum (bs "posType") 1 2
  (map bs ["LONG"; "SHORT"]%string).

(** secured, constants.go:967-1030; names at line 975. *)
Definition enum_secured : enum := mkEnum (bs "secured") 1 2
  (map bs ["NAKED"; "COVERED"]%string).

(** duration, constants.go:1032-1096; names at line 1041. *)
Definition enum_duration : enum := mkEnum (bs "duration") 1 3
  (map bs ["DAY"; "GOODTILCANCEL"; "IMMEDIATE"]%string).

(** restriction, constants.go:1098-1162; names at line 1107. *)
Definition enum_restriction : enum := mkEnum (bs "restriction") 1 3
  (map bs ["ALLORNONE"; "MINUNITS"; "NONE"]%string).

(** unitType, constants.go:1164-1227; names at line 1172. *)
Definition enum_unitType : enum := mkEnum (bs "unitType") 1 2
  (map bs ["SHARES"; "CURRENCY"]%string).

(** optBuyType, constants.go:1229-1292; names at line 1237. *)
Definition enum_optBuyType : enum := mkEnum (bs "optBuyType") 1 2
  (map bs ["BUYTOOPEN"; "BUYTOCLOSE"]%string).

(** sellType, constants.go:1294-1357; names at line 1302. *)
Definition enum_sellType : enum := mkEnum (bs "sellType") 1 2
  (map bs ["SELL"; "SELLSHORT"]%string).

(** loanPmtFreq, constants.go:1359-1430; names at line 1375. *)
Definition enum_loanPmtFreq : enum := mkEnum (bs "loanPmtFreq") 1 10
  (map bs ["WEEKLY"; "BIWEEKLY"; "TWICEMONTHLY"; "MONTHLY"; "FOURWEEKS"; "BIMONTHLY"; "QUARTERLY"; "SEMIANNUALLY"; "ANNUALLY"; "OTHER"]%string).

(** incomeType, constants.go:1432-1498; names at line 1443. *)
Definition enum_incomeType : enum := mkEnum (bs "incomeType") 1 5
  (map bs ["CGLONG"; "CGSHORT"; "DIV"; "INTEREST"; "MISC"]%string).

(** sellReason, constants.go:1500-1564; names at line 1509. *)
Definition enum_sellReason : enum := mkEnum (bs "sellReason") 1 3
  (map bs ["CALL"; "SELL"; "MATURITY"]%string).

(** optSellType, constants.go:1566-1629; names at line 1574. *)
Definition enum_optSellType : enum := mkEnum (bs "optSellType") 1 2
  (map bs ["SELLTOCLOSE"; "SELLTOOPEN"]%string).

(** relType, constants.go:1631-1696; names at line 1641. *)
Definition enum_relType : enum := mkEnum (bs "relType") 1 4
  (map bs ["SPREAD"; "STRADDLE"; "NONE"; "OTHER"]%string).

(** charType, constants.go:1698-1763; names at line 1708. *)
Definition enum_charType : enum := mkEnum (bs "charType") 1 4
  (map bs ["ALPHAONLY"; "NUMERICONLY"; "ALPHAORNUMERIC"; "ALPHAANDNUMERIC"]%string).

(** syncMode, constants.go:1765-1828; names at line 1773. *)
Definition enum_syncMode : enum := mkEnum (bs "syncMode") 1 2
  (map bs ["FULL"; "LITE"]%string).

(** ofxSec, constants.go:1830-1893; names at line 1838. *)
Definition enum_ofxSec : enum := mkEnum (bs "ofxSec") 1 2
  (map bs ["NONE"; "TYPE 1"]%string).

(** debtType, constants.go:1895-1958; names at line 1903. *)
Definition enum_debtType : enum := mkEnum (bs "debtType") 1 2
  (map bs ["COUPON"; "ZERO"]%string).

(** debtClass, constants.go:1960-2025; names at line 1970. *)
Definition enum_debtClass : enum := mkEnum (bs "debtClass") 1 4
  (map bs ["TREASURY"; "MUNICIPAL"; "CORPORATE"; "OTHER"]%string).

(** couponFreq, constants.go:2027-2093; names at line 2038. *)
Definition enum_couponFreq : enum := mkEnum (bs "couponFreq") 1 5
  (map bs ["MONTHLY"; "QUARTERLY"; "SEMIANNUAL"; "ANNUAL"; "OTHER"]%string).

(** callType, constants.go:2095-2160; names at line 2105. *)
Definition enum_callType : enum := mkEnum (bs "callType") 1 4
  (map bs ["CALL"; "PUT"; "PREFUND"; "MATURITY"]%string).

(** assetClass, constants.go:2162-2230; names at line 2175. *)
Definition enum_assetClass : enum := mkEnum (bs "assetClass") 1 7
  (map bs ["DOMESTICBOND"; "INTLBOND"; "LARGESTOCK"; "SMALLSTOCK"; "INTLSTOCK"; "MONEYMRKT"; "OTHER"]%string).

(** mfType, constants.go:2232-2296; names at line 2241. *)
Definition enum_mfType : enum := mkEnum (bs "mfType") 1 3
  (map bs ["OPENEND"; "CLOSEEND"; "OTHER"]%string).

(** optType, constants.go:2298-2361; names at line 2306. *)
Definition enum_optType : enum := mkEnum (bs "optType") 1 2
  (map bs ["PUT"; "CALL"]%string).

(** stockType, constants.go:2363-2428; names at line 2373. *)
Definition enum_stockType : enum := mkEnum (bs "stockType") 1 4
  (map bs ["COMMON"; "PREFERRED"; "CONVERTIBLE"; "OTHER"]%string).

(** holderType, constants.go:2430-2496; names at line 2441. *)
Definition enum_holderType : enum := mkEnum (bs "holderType") 1 5
  (map bs ["INDIVIDUAL"; "JOINT"; "CUSTODIAL"; "TRUST"; "OTHER"]%string).

(** acctClassification, constants.go:2498-2563; names at line 2508. *)
Definition enum_acctClassification : enum := mkEnum (bs "acctClassification") 1 4
  (map bs ["PERSONAL"; "BUSINESS"; "CORPORATE"; "OTHER"]%string).

(** svcStatus, constants.go:2565-2629; names at line 2574. *)
Definition enum_svcStatus : enum := mkEnum (bs "svcStatus") 1 3
  (map bs ["AVAIL"; "PEND"; "ACTIVE"]%string).

(** usProductType, constants.go:2631-2703; names at line 2648. *)
Definition enum_usProductType : enum := mkEnum (bs "usProductType") 1 11
  (map bs ["401K"; "403B"; "IRA"; "KEOGH"; "OTHER"; "SARSEP"; "SIMPLE"; "NORMAL"; "TDA"; "TRUST"; "UGMA"]%string).

(** All enumeration types of constants.go, in file order. *)
Definition all_enums : list enum :=
  [enum_ofxVersion;
   enum_acctType;
   enum_trnType;
   enum_imageType;
   enum_imageRefType;
   enum_checkSup;
   enum_correctAction;
   enum_balType;
   enum_inv401kSource;
   enum_subAcctType;
   enum_buyType;
   enum_optAction;
   enum_tferAction;
   enum_posType;
   enum_secured;
   enum_duration;
   enum_restriction;
   enum_unitType;
   enum_optBuyType;
   enum_sellType;
   enum_loanPmtFreq;
   enum_incomeType;
   enum_sellReason;
   enum_optSellType;
   enum_relType;
   enum_charType;
   enum_syncMode;
   enum_ofxSec;
   enum_debtType;
   enum_debtClass;
   enum_couponFreq;
   enum_callType;
   enum_assetClass;
   enum_mfType;
   enum_optType;
   enum_stockType;
   enum_holderType;
   enum_acctClassification;
   enum_svcStatus;
   enum_usProductType].

(** For each type its name and the Go identifiers of its constants, in order of
    value (1, 2, ...). *)
Definition enum_idents : list (enum * (str * list str)) :=
  [(enum_ofxVersion, (bs "OfxVersion", map bs ["OfxVersion102"; "OfxVersion103"; "OfxVersion151"; "OfxVersion160"; "OfxVersion200"; "OfxVersion201"; "OfxVersion202"; "OfxVersion203"; "OfxVersion210"; "OfxVersion211"; "OfxVersion220"]%string));
   (enum_acctType, (bs "AcctType", map bs ["AcctTypeChecking"; "AcctTypeSavings"; "AcctTypeMoneyMrkt"; "AcctTypeCreditLine"; "AcctTypeCD"]%string));
   (enum_trnType, (bs "TrnType", map bs ["TrnTypeCredit"; "TrnTypeDebit"; "TrnTypeInt"; "TrnTypeDiv"; "TrnTypeFee"; "TrnTypeSrvChg"; "TrnTypeDep"; "TrnTypeATM"; "TrnTypePOS"; "TrnTypeXfer"; "TrnTypeCheck"; "TrnTypePayment"; "TrnTypeCash"; "TrnTypeDirectDep"; "TrnTypeDirectDebit"; "TrnTypeRepeatPmt"; "TrnTypeHold"; "TrnTypeOther"]%string));
   (enum_imageType, (bs "ImageType", map bs ["ImageTypeStatement"; "ImageTypeTransaction"; "ImageTypeTax"]%string));
   (enum_imageRefType, (bs "ImageRefType", map bs ["ImageRefTypeOpaque"; "ImageRefTypeURL"; "ImageRefTypeFormURL"]%string));
   (enum_checkSup, (bs "CheckSup", map bs ["CheckSupFrontOnly"; "CheckSupBackOnly"; "CheckSupFrontAndBack"]%string));
   (enum_correctAction, (bs "CorrectAction", map bs ["CorrectActionDelete"; "CorrectActionReplace"]%string));
   (enum_balType, (bs "BalType", map bs ["BalTypeDollar"; "BalTypePercent"; "BalTypeNumber"]%string));
   (enum_inv401kSource, (bs "Inv401kSource", map bs ["Inv401kSourcePreTax"; "Inv401kSourceAfterTax"; "Inv401kSourceMatch"; "Inv401kSourceProfitSharing"; "Inv401kSourceRollover"; "Inv401kSourceOtherVest"; "Inv401kSourceOtherNonVest"]%string));
   (enum_subAcctType, (bs "SubAcctType", map bs ["SubAcctTypeCash"; "SubAcctTypeMargin"; "SubAcctTypeShort"; "SubAcctTypeOther"]%string));
   (enum_buyType, (bs "BuyType", map bs ["BuyTypeBuy"; "BuyTypeBuyToCover"]%string));
   (enum_optAction, (bs "OptAction", map bs ["OptActionExercise"; "OptActionAssign"; "OptActionExpire"]%string));
   (enum_tferAction, (bs "TferAction", map bs ["TferActionIn"; "TferActionOut"]%string));
   (enum_posType, (bs "PosType", map bs ["PosTypeLong"; "PosTypeShort"]%string));
   (enum_secured, (bs "Secured", map bs ["SecuredNaked"; "SecuredCovered"]%string));
   (enum_duration, (bs "Duration", map bs ["DurationDay"; "DurationGoodTilCancel"; "DurationImmediate"]%string));
   (enum_restriction, (bs "Restriction", map bs ["RestrictionAllOrNone"; "RestrictionMinUnits"; "RestrictionNone"]%string));
   (enum_unitType, (bs "UnitType", map bs ["UnitTypeShares"; "UnitTypeCurrency"]%string));
   (enum_optBuyType, (bs "OptBuyType", map bs ["OptBuyTypeBuyToOpen"; "OptBuyTypeBuyToClose"]%string));
   (enum_sellType, (bs "SellType", map bs ["SellTypeSell"; "SellTypeSellShort"]%string));
   (enum_loanPmtFreq, (bs "LoanPmtFreq", map bs ["LoanPmtFreqWeekly"; "LoanPmtFreqBiweekly"; "LoanPmtFreqTwiceMonthly"; "LoanPmtFreqMonthly"; "LoanPmtFreqFourWeeks"; "LoanPmtFreqBiMonthly"; "LoanPmtFreqQuarterly"; "LoanPmtFreqSemiannually"; "LoanPmtFreqAnnually"; "LoanPmtFreqOther"]%string));
   (enum_incomeType, (bs "IncomeType", map bs ["IncomeTypeCGLong"; "IncomeTypeCGShort"; "IncomeTypeDiv"; "IncomeTypeInterest"; "IncomeTypeMisc"]%string));
   (enum_sellReason, (bs "SellReason", map bs ["SellReasonCall"; "SellReasonSell"; "SellReasonMaturity"]%string));
   (enum_optSellType, (bs "OptSellType", map bs ["OptSellTypeSellToClose"; "OptSellTypeSellToOpen"]%string));
   (enum_relType, (bs "RelType", map bs ["RelTypeSpread"; "RelTypeStraddle"; "RelTypeNone"; "RelTypeOther"]%string));
   (enum_charType, (bs "CharType", map bs ["CharTypeAlphaOnly"; "CharTypeNumericOnly"; "CharTypeAlphaOrNumeric"; "CharTypeAlphaAndNumeric"]%string));
   (enum_syncMode, (bs "SyncMode", map bs ["SyncModeFull"; "SyncModeLite"]%string));
   (enum_ofxSec, (bs "OfxSec", map bs ["OfxSecNone"; "OfxSecType1"]%string));
   (enum_debtType, (bs "DebtType", map bs ["DebtTypeCoupon"; "DebtTypeZero"]%string));
   (enum_debtClass, (bs "DebtClass", map bs ["DebtClassTreasury"; "DebtClassMunicipal"; "DebtClassCorporate"; "DebtClassOther"]%string));
   (enum_couponFreq, (bs "CouponFreq", map bs ["CouponFreqMonthly"; "CouponFreqQuarterly"; "CouponFreqSemiannual"; "CouponFreqAnnual"; "CouponFreqOther"]%string));
   (enum_callType, (bs "CallType", map bs ["CallTypeCall"; "CallTypePut"; "CallTypePrefund"; "CallTypeMaturity"]%string));
   (enum_assetClass, (bs "AssetClass", map bs ["AssetClassDomesticBond"; "AssetClassIntlBond"; "AssetClassLargeStock"; "AssetClassSmallStock"; "AssetClassIntlStock"; "AssetClassMoneyMrkt"; "AssetClassOther"]%string));
   (enum_mfType, (bs "MfType", map bs ["MfTypeOpenEnd"; "MfTypeCloseEnd"; "MfTypeOther"]%string));
   (enum_optType, (bs "OptType", map bs ["OptTypePut"; "OptTypeCall"]%string));
   (enum_stockType, (bs "StockType", map bs ["StockTypeCommon"; "StockTypePreferred"; "StockTypeConvertible"; "StockTypeOther"]%string));
   (enum_holderType, (bs "HolderType", map bs ["HolderTypeIndividual"; "HolderTypeJoint"; "HolderTypeCustodial"; "HolderTypeTrust"; "HolderTypeOther"]%string));
   (enum_acctClassification, (bs "AcctClassification", map bs ["AcctClassificationPersonal"; "AcctClassificationBusiness"; "AcctClassificationCorporate"; "AcctClassificationOther"]%string));
   (enum_svcStatus, (bs "SvcStatus", map bs ["SvcStatusAvail"; "SvcStatusPend"; "SvcStatusActive"]%string));
   (enum_usProductType, (bs "UsProductType", map bs ["UsProductType401K"; "UsProductType403B"; "UsProductTypeIRA"; "UsProductTypeKEOGH"; "UsProductTypeOther"; "UsProductTypeSARSEP"; "UsProductTypeSimple"; "UsProductTypeNormal"; "UsProductTypeTDA"; "UsProductTypeTrust"; "UsProductTypeUGMA"]%string))].

(** The constants the rest of the code refers to by name. *)
Definition OfxVersion102 : N := 1.
Definition OfxVersion103 : N := 2.
Definition OfxVersion151 : N := 3.
Definition OfxVersion160 : N := 4.
Definition OfxVersion200 : N := 5.
Definition OfxVersion201 : N := 6.
Definition OfxVersion202 : N := 7.
Definition OfxVersion203 : N := 8.
Definition OfxVersion210 : N := 9.
Definition OfxVersion211 : N := 10.
Definition OfxVersion220 : N := 11.
Definition TrnTypeCredit : N := 1.
Definition TrnTypeDebit : N := 2.
Definition TrnTypeInt : N := 3.
Definition TrnTypeDiv : N := 4.
Definition TrnTypeFee : N := 5.
Definition TrnTypeSrvChg : N := 6.
Definition TrnTypeDep : N := 7.
Definition TrnTypeATM : N := 8.
Definition TrnTypePOS : N := 9.
Definition TrnTypeXfer : N := 10.
Definition TrnTypeCheck : N := 11.
Definition TrnTypePayment : N := 12.
Definition TrnTypeCash : N := 13.
Definition TrnTypeDirectDep : N := 14.
Definition TrnTypeDirectDebit : N := 15.
Definition TrnTypeRepeatPmt : N := 16.
Definition TrnTypeHold : N := 17.
Definition TrnTypeOther : N := 18.
