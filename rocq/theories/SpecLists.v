(** What the lists with hand-written encoders ought to contain: which element
    stands for which item, stated item by item. *)
From Coq Require Import QArith.
From Verif Require Import GoStr GoTime Types Enums Records Messages Codec SpecCodec Schema Document SpecDocument.
Close Scope Q_scope.

(** [n] is an element with the given name. *)
Definition is_element (nm : str) (n : node) : Prop := exists kids, n = Elem nm kids.

(** [n] is an element with this name, and decoding it into a new struct of the
    type gives [r]. *)
Definition reads {R} (e : env) (n : node) (nm : str) (t : ty) (of : interp t -> R) (r : R) : Prop :=
  is_element nm n /\ option_map of (unmarshal e t n (zero t)) = Some r.

(** The five kinds of securities. *)
Definition security_name (s : Security) : str :=
  match s with
  | Security_DebtInfo _ => bs "DEBTINFO"
  | Security_MFInfo _ => bs "MFINFO"
  | Security_OptInfo _ => bs "OPTINFO"
  | Security_OtherInfo _ => bs "OTHERINFO"
  | Security_StockInfo _ => bs "STOCKINFO"
  end.
Definition security_reads (e : env) (s : Security) (n : node) : Prop :=
  match s with
  | Security_DebtInfo x => reads e n (bs "DEBTINFO") DebtInfo_ty DebtInfo_of x
  | Security_MFInfo x => reads e n (bs "MFINFO") MFInfo_ty MFInfo_of x
  | Security_OptInfo x => reads e n (bs "OPTINFO") OptInfo_ty OptInfo_of x
  | Security_OtherInfo x => reads e n (bs "OTHERINFO") OtherInfo_ty OtherInfo_of x
  | Security_StockInfo x => reads e n (bs "STOCKINFO") StockInfo_ty StockInfo_of x
  end.

(** The twenty kinds of investment transactions. *)
Definition transaction_names : list str :=
  map bs (["BUYDEBT"; "BUYMF"; "BUYOPT"; "BUYOTHER"; "BUYSTOCK"; "CLOSUREOPT"; "INCOME";
    "INVEXPENSE"; "JRNLFUND"; "JRNLSEC"; "MARGININTEREST"; "REINVEST"; "RETOFCAP";
    "SELLDEBT"; "SELLMF"; "SELLOPT"; "SELLOTHER"; "SELLSTOCK"; "SPLIT"; "TRANSFER"])%string.
Definition transaction_name (s : InvTransaction) : str :=
  match s with
  | InvTransaction_BuyDebt _ => bs "BUYDEBT"
  | InvTransaction_BuyMF _ => bs "BUYMF"
  | InvTransaction_BuyOpt _ => bs "BUYOPT"
  | InvTransaction_BuyOther _ => bs "BUYOTHER"
  | InvTransaction_BuyStock _ => bs "BUYSTOCK"
  | InvTransaction_ClosureOpt _ => bs "CLOSUREOPT"
  | InvTransaction_Income _ => bs "INCOME"
  | InvTransaction_InvExpense _ => bs "INVEXPENSE"
  | InvTransaction_JrnlFund _ => bs "JRNLFUND"
  | InvTransaction_JrnlSec _ => bs "JRNLSEC"
  | InvTransaction_MarginInterest _ => bs "MARGININTEREST"
  | InvTransaction_Reinvest _ => bs "REINVEST"
  | InvTransaction_RetOfCap _ => bs "RETOFCAP"
  | InvTransaction_SellDebt _ => bs "SELLDEBT"
  | InvTransaction_SellMF _ => bs "SELLMF"
  | InvTransaction_SellOpt _ => bs "SELLOPT"
  | InvTransaction_SellOther _ => bs "SELLOTHER"
  | InvTransaction_SellStock _ => bs "SELLSTOCK"
  | InvTransaction_Split _ => bs "SPLIT"
  | InvTransaction_Transfer _ => bs "TRANSFER"
  end.
Definition transaction_reads (e : env) (s : InvTransaction) (n : node) : Prop :=
  match s with
  | InvTransaction_BuyDebt x => reads e n (bs "BUYDEBT") BuyDebt_ty BuyDebt_of x
  | InvTransaction_BuyMF x => reads e n (bs "BUYMF") BuyMF_ty BuyMF_of x
  | InvTransaction_BuyOpt x => reads e n (bs "BUYOPT") BuyOpt_ty BuyOpt_of x
  | InvTransaction_BuyOther x => reads e n (bs "BUYOTHER") BuyOther_ty BuyOther_of x
  | InvTransaction_BuyStock x => reads e n (bs "BUYSTOCK") BuyStock_ty BuyStock_of x
  | InvTransaction_ClosureOpt x => reads e n (bs "CLOSUREOPT") ClosureOpt_ty ClosureOpt_of x
  | InvTransaction_Income x => reads e n (bs "INCOME") Income_ty Income_of x
  | InvTransaction_InvExpense x => reads e n (bs "INVEXPENSE") InvExpense_ty InvExpense_of x
  | InvTransaction_JrnlFund x => reads e n (bs "JRNLFUND") JrnlFund_ty JrnlFund_of x
  | InvTransaction_JrnlSec x => reads e n (bs "JRNLSEC") JrnlSec_ty JrnlSec_of x
  | InvTransaction_MarginInterest x => reads e n (bs "MARGININTEREST") MarginInterest_ty MarginInterest_of x
  | InvTransaction_Reinvest x => reads e n (bs "REINVEST") Reinvest_ty Reinvest_of x
  | InvTransaction_RetOfCap x => reads e n (bs "RETOFCAP") RetOfCap_ty RetOfCap_of x
  | InvTransaction_SellDebt x => reads e n (bs "SELLDEBT") SellDebt_ty SellDebt_of x
  | InvTransaction_SellMF x => reads e n (bs "SELLMF") SellMF_ty SellMF_of x
  | InvTransaction_SellOpt x => reads e n (bs "SELLOPT") SellOpt_ty SellOpt_of x
  | InvTransaction_SellOther x => reads e n (bs "SELLOTHER") SellOther_ty SellOther_of x
  | InvTransaction_SellStock x => reads e n (bs "SELLSTOCK") SellStock_ty SellStock_of x
  | InvTransaction_Split x => reads e n (bs "SPLIT") Split_ty Split_of x
  | InvTransaction_Transfer x => reads e n (bs "TRANSFER") Transfer_ty Transfer_of x
  end.

(** The five kinds of positions. *)
Definition position_name (s : Position) : str :=
  match s with
  | Position_DebtPosition _ => bs "POSDEBT"
  | Position_MFPosition _ => bs "POSMF"
  | Position_OptPosition _ => bs "POSOPT"
  | Position_OtherPosition _ => bs "POSOTHER"
  | Position_StockPosition _ => bs "POSSTOCK"
  end.
Definition position_reads (e : env) (s : Position) (n : node) : Prop :=
  match s with
  | Position_DebtPosition x => reads e n (bs "POSDEBT") DebtPosition_ty DebtPosition_of x
  | Position_MFPosition x => reads e n (bs "POSMF") MFPosition_ty MFPosition_of x
  | Position_OptPosition x => reads e n (bs "POSOPT") OptPosition_ty OptPosition_of x
  | Position_OtherPosition x => reads e n (bs "POSOTHER") OtherPosition_ty OtherPosition_of x
  | Position_StockPosition x => reads e n (bs "POSSTOCK") StockPosition_ty StockPosition_of x
  end.

(** The eleven kinds of open orders. *)
Definition order_name (s : OpenOrder) : str :=
  match s with
  | OpenOrder_OOBuyDebt _ => bs "OOBUYDEBT"
  | OpenOrder_OOBuyMF _ => bs "OOBUYMF"
  | OpenOrder_OOBuyOpt _ => bs "OOBUYOPT"
  | OpenOrder_OOBuyOther _ => bs "OOBUYOTHER"
  | OpenOrder_OOBuyStock _ => bs "OOBUYSTOCK"
  | OpenOrder_OOSellDebt _ => bs "OOSELLDEBT"
  | OpenOrder_OOSellMF _ => bs "OOSELLMF"
  | OpenOrder_OOSellOpt _ => bs "OOSELLOPT"
  | OpenOrder_OOSellOther _ => bs "OOSELLOTHER"
  | OpenOrder_OOSellStock _ => bs "OOSELLSTOCK"
  | OpenOrder_OOSwitchMF _ => bs "SWITCHMF"
  end.
Definition order_reads (e : env) (s : OpenOrder) (n : node) : Prop :=
  match s with
  | OpenOrder_OOBuyDebt x => reads e n (bs "OOBUYDEBT") OOBuyDebt_ty OOBuyDebt_of x
  | OpenOrder_OOBuyMF x => reads e n (bs "OOBUYMF") OOBuyMF_ty OOBuyMF_of x
  | OpenOrder_OOBuyOpt x => reads e n (bs "OOBUYOPT") OOBuyOpt_ty OOBuyOpt_of x
  | OpenOrder_OOBuyOther x => reads e n (bs "OOBUYOTHER") OOBuyOther_ty OOBuyOther_of x
  | OpenOrder_OOBuyStock x => reads e n (bs "OOBUYSTOCK") OOBuyStock_ty OOBuyStock_of x
  | OpenOrder_OOSellDebt x => reads e n (bs "OOSELLDEBT") OOSellDebt_ty OOSellDebt_of x
  | OpenOrder_OOSellMF x => reads e n (bs "OOSELLMF") OOSellMF_ty OOSellMF_of x
  | OpenOrder_OOSellOpt x => reads e n (bs "OOSELLOPT") OOSellOpt_ty OOSellOpt_of x
  | OpenOrder_OOSellOther x => reads e n (bs "OOSELLOTHER") OOSellOther_ty OOSellOther_of x
  | OpenOrder_OOSellStock x => reads e n (bs "OOSELLSTOCK") OOSellStock_ty OOSellStock_of x
  | OpenOrder_OOSwitchMF x => reads e n (bs "SWITCHMF") OOSwitchMF_ty OOSwitchMF_of x
  end.

(** The types with hand-written methods that are slices: PositionList,
    invstmt.go:942, OOList, invstmt.go:1210, and MessageSetList, profile.go:90. *)
Definition PositionList_ty : ty := TAltList (bs "INVPOSLIST") Position_alts.
Definition OOList_ty : ty := TAltList (bs "INVOOLIST") OpenOrder_alts.
Definition MessageSetList_ty : ty := TMsgSets MessageSet_fields.

(** The bank transactions inside an investment transaction list. *)
Definition bank_transaction_reads (e : env) (b : InvBankTransaction) (n : node) : Prop :=
  reads e n (bs "INVBANKTRAN") InvBankTransaction_ty InvBankTransaction_of b.

(** The children an investment transaction list may have. *)
Definition known_child (n : node) : Prop :=
  exists nm k, n = Elem nm k /\ In nm (bs "DTSTART" :: bs "DTEND" :: bs "INVBANKTRAN" :: transaction_names).

Definition child_reads (e : env) (n : node) : Prop :=
  (exists nm k d, n = Elem nm k /\ In nm [bs "DTSTART"; bs "DTEND"] /\ date_unmarshal e (text_of k) = Some d) \/
  (exists t, transaction_reads e t n) \/ (exists b, bank_transaction_reads e b n).

(** The children of an investment transaction list with one of these names. *)
Definition having (nms : list str) (kids : list node) : list node :=
  filter (fun n => match n with Elem nm _ => existsb (str_eqb nm) nms | _ => false end) kids.

(** The date in the last of these elements; the zero time if there is none. *)
Definition last_date (e : env) (ns : list node) (d : gotime) : Prop :=
  match rev ns with
  | [] => d = zero_time
  | n :: _ => exists nm kids, n = Elem nm kids /\ date_unmarshal e (text_of kids) = Some d
  end.

(** [n] is the element a profile has for the message set [s]: an element
    whose only child has the name of the set and reads as its settings. *)
Definition message_set_reads (e : env) (s : MessageSet) (n : node) : Prop :=
  exists outer kids settings, n = Elem outer kids /\
    solid kids = [Elem (MessageSet_Name s) settings] /\
    option_map (fun v => MessageSet_of (MessageSet_Name s, v))
      (unmarshal e MessageSet_ty (Elem (MessageSet_Name s) settings) (zero MessageSet_ty)) = Some s.

(** The element written for a message set: the name without V1 around the name. *)
Definition message_set_element (s : MessageSet) (n : node) : Prop :=
  exists stem settings, MessageSet_Name s = stem ++ bs "V1" /\
    n = Elem stem [Elem (MessageSet_Name s) settings].

(** The first element with this name on the way down along first children. *)
Fixpoint leading (nm : str) (n : node) : option node :=
  match n with
  | Elem x kids =>
      if str_eqb x nm then Some n
      else match kids with k :: _ => leading nm k | [] => None end
  | _ => None
  end.

(** The element encoded for [v] is the first one with this name inside [n]. *)
Definition common (nm : str) (t : ty) (v : interp t) (n : node) : Prop :=
  exists m, leading nm n = Some m /\ encode_as t v = Some [m].
