(** Generated by tools/gen_accessors.py. The methods of the interface types
    InvTransaction and Position (invstmt.go), OpenOrder (invstmt.go) and Security
    (seclist.go), one match arm for each method in /repo. *)
From Verif Require Import GoStr Records.

Definition InvTransaction_TransactionType_method (t : InvTransaction) : str :=
  match t with
  | InvTransaction_BuyDebt _ => bs "BUYDEBT" (* invstmt.go:130-132 *)
  | InvTransaction_BuyMF _ => bs "BUYMF" (* invstmt.go:147-149 *)
  | InvTransaction_BuyOpt _ => bs "BUYOPT" (* invstmt.go:164-166 *)
  | InvTransaction_BuyOther _ => bs "BUYOTHER" (* invstmt.go:180-182 *)
  | InvTransaction_BuyStock _ => bs "BUYSTOCK" (* invstmt.go:196-198 *)
  | InvTransaction_ClosureOpt _ => bs "CLOSUREOPT" (* invstmt.go:218-220 *)
  | InvTransaction_Income _ => bs "INCOME" (* invstmt.go:244-246 *)
  | InvTransaction_InvExpense _ => bs "INVEXPENSE" (* invstmt.go:267-269 *)
  | InvTransaction_JrnlFund _ => bs "JRNLFUND" (* invstmt.go:286-288 *)
  | InvTransaction_JrnlSec _ => bs "JRNLSEC" (* invstmt.go:306-308 *)
  | InvTransaction_MarginInterest _ => bs "MARGININTEREST" (* invstmt.go:325-327 *)
  | InvTransaction_Reinvest _ => bs "REINVEST" (* invstmt.go:356-358 *)
  | InvTransaction_RetOfCap _ => bs "RETOFCAP" (* invstmt.go:379-381 *)
  | InvTransaction_SellDebt _ => bs "SELLDEBT" (* invstmt.go:397-399 *)
  | InvTransaction_SellMF _ => bs "SELLMF" (* invstmt.go:415-417 *)
  | InvTransaction_SellOpt _ => bs "SELLOPT" (* invstmt.go:437-439 *)
  | InvTransaction_SellOther _ => bs "SELLOTHER" (* invstmt.go:453-455 *)
  | InvTransaction_SellStock _ => bs "SELLSTOCK" (* invstmt.go:469-471 *)
  | InvTransaction_Split _ => bs "SPLIT" (* invstmt.go:495-497 *)
  | InvTransaction_Transfer _ => bs "TRANSFER" (* invstmt.go:520-522 *)
  end.

Definition InvTransaction_InvTransaction_method (t : InvTransaction) : InvTran :=
  match t with
  | InvTransaction_BuyDebt x => InvBuy_InvTran (BuyDebt_InvBuy x) (* invstmt.go:134-136 *)
  | InvTransaction_BuyMF x => InvBuy_InvTran (BuyMF_InvBuy x) (* invstmt.go:151-153 *)
  | InvTransaction_BuyOpt x => InvBuy_InvTran (BuyOpt_InvBuy x) (* invstmt.go:168-170 *)
  | InvTransaction_BuyOther x => InvBuy_InvTran (BuyOther_InvBuy x) (* invstmt.go:184-186 *)
  | InvTransaction_BuyStock x => InvBuy_InvTran (BuyStock_InvBuy x) (* invstmt.go:200-202 *)
  | InvTransaction_ClosureOpt x => ClosureOpt_InvTran x (* invstmt.go:222-224 *)
  | InvTransaction_Income x => Income_InvTran x (* invstmt.go:248-250 *)
  | InvTransaction_InvExpense x => InvExpense_InvTran x (* invstmt.go:271-273 *)
  | InvTransaction_JrnlFund x => JrnlFund_InvTran x (* invstmt.go:290-292 *)
  | InvTransaction_JrnlSec x => JrnlSec_InvTran x (* invstmt.go:310-312 *)
  | InvTransaction_MarginInterest x => MarginInterest_InvTran x (* invstmt.go:329-331 *)
  | InvTransaction_Reinvest x => Reinvest_InvTran x (* invstmt.go:360-362 *)
  | InvTransaction_RetOfCap x => RetOfCap_InvTran x (* invstmt.go:383-385 *)
  | InvTransaction_SellDebt x => InvSell_InvTran (SellDebt_InvSell x) (* invstmt.go:401-403 *)
  | InvTransaction_SellMF x => InvSell_InvTran (SellMF_InvSell x) (* invstmt.go:419-421 *)
  | InvTransaction_SellOpt x => InvSell_InvTran (SellOpt_InvSell x) (* invstmt.go:441-443 *)
  | InvTransaction_SellOther x => InvSell_InvTran (SellOther_InvSell x) (* invstmt.go:457-459 *)
  | InvTransaction_SellStock x => InvSell_InvTran (SellStock_InvSell x) (* invstmt.go:473-475 *)
  | InvTransaction_Split x => Split_InvTran x (* invstmt.go:499-501 *)
  | InvTransaction_Transfer x => Transfer_InvTran x (* invstmt.go:524-526 *)
  end.

Definition Security_SecurityType_method (t : Security) : str :=
  match t with
  | Security_DebtInfo _ => bs "DEBTINFO" (* seclist.go:136-138 *)
  | Security_MFInfo _ => bs "MFINFO" (* seclist.go:174-176 *)
  | Security_OptInfo _ => bs "OPTINFO" (* seclist.go:197-199 *)
  | Security_OtherInfo _ => bs "OTHERINFO" (* seclist.go:217-219 *)
  | Security_StockInfo _ => bs "STOCKINFO" (* seclist.go:238-240 *)
  end.

Definition Security_SecurityInfo_method (t : Security) : SecInfo :=
  match t with
  | Security_DebtInfo x => DebtInfo_SecInfo x (* seclist.go:141-143 *)
  | Security_MFInfo x => MFInfo_SecInfo x (* seclist.go:179-181 *)
  | Security_OptInfo x => OptInfo_SecInfo x (* seclist.go:202-204 *)
  | Security_OtherInfo x => OtherInfo_SecInfo x (* seclist.go:222-224 *)
  | Security_StockInfo x => StockInfo_SecInfo x (* seclist.go:243-245 *)
  end.

Definition Position_PositionType_method (t : Position) : str :=
  match t with
  | Position_DebtPosition _ => bs "POSDEBT" (* invstmt.go:858-860 *)
  | Position_MFPosition _ => bs "POSMF" (* invstmt.go:878-880 *)
  | Position_OptPosition _ => bs "POSOPT" (* invstmt.go:895-897 *)
  | Position_OtherPosition _ => bs "POSOTHER" (* invstmt.go:912-914 *)
  | Position_StockPosition _ => bs "POSSTOCK" (* invstmt.go:931-933 *)
  end.

Definition Position_InvPosition_method (t : Position) : InvPosition :=
  match t with
  | Position_DebtPosition x => DebtPosition_InvPos x (* invstmt.go:863-865 *)
  | Position_MFPosition x => MFPosition_InvPos x (* invstmt.go:883-885 *)
  | Position_OptPosition x => OptPosition_InvPos x (* invstmt.go:900-902 *)
  | Position_OtherPosition x => OtherPosition_InvPos x (* invstmt.go:917-919 *)
  | Position_StockPosition x => StockPosition_InvPos x (* invstmt.go:936-938 *)
  end.

Definition OpenOrder_OrderType_method (t : OpenOrder) : str :=
  match t with
  | OpenOrder_OOBuyDebt _ => bs "OOBUYDEBT" (* invstmt.go:1079-1081 *)
  | OpenOrder_OOBuyMF _ => bs "OOBUYMF" (* invstmt.go:1092-1094 *)
  | OpenOrder_OOBuyOpt _ => bs "OOBUYOPT" (* invstmt.go:1104-1106 *)
  | OpenOrder_OOBuyOther _ => bs "OOBUYOTHER" (* invstmt.go:1117-1119 *)
  | OpenOrder_OOBuyStock _ => bs "OOBUYSTOCK" (* invstmt.go:1129-1131 *)
  | OpenOrder_OOSellDebt _ => bs "OOSELLDEBT" (* invstmt.go:1140-1142 *)
  | OpenOrder_OOSellMF _ => bs "OOSELLMF" (* invstmt.go:1154-1156 *)
  | OpenOrder_OOSellOpt _ => bs "OOSELLOPT" (* invstmt.go:1166-1168 *)
  | OpenOrder_OOSellOther _ => bs "OOSELLOTHER" (* invstmt.go:1179-1181 *)
  | OpenOrder_OOSellStock _ => bs "OOSELLSTOCK" (* invstmt.go:1191-1193 *)
  | OpenOrder_OOSwitchMF _ => bs "SWITCHMF" (* invstmt.go:1206-1208 *)
  end.
