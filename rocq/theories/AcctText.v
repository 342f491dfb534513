(** What pointers to the information on accounts print as: fmt's verb %+v. *)
From Coq Require Import QArith.
From Verif Require Import GoStr GoTime Types Enums EnumTables Records.
Close Scope Q_scope.

(** The fields of a struct as fmt prints them for %+v, without the braces: name,
    colon, value, separated by one space (fmt/print.go, printValue, case Struct). *)
Fixpoint fields_text (l : list (str * str)) : str :=
  match l with
  | [] => []
  | [(n, v)] => n ++ ":"%char :: v
  | (n, v) :: l' => n ++ ":"%char :: v ++ " "%char :: fields_text l'
  end.

(** A struct with its braces (fmt/print.go, printValue, case Struct), as in
    fmt.Sprintf("%+v", ...), signup.go:78, 96, 114. *)
Definition plus_v (l : list (str * str)) : str := "{"%char :: fields_text l ++ ["}"%char].

(** xml.Name, which is {Space Local}. The records of the model have no XMLName, so
    the functions below are given it. *)
Definition xml_name_text (n : str * str) : str := plus_v [(bs "Space", fst n); (bs "Local", snd n)].

(** A Boolean: its method String has a pointer receiver (types.go:271), which fmt does not
    find for a field, so it prints the bool. A String prints as it is, for the same
    reason (types.go:230). The methods of Date, Amount and the enumerations have
    value receivers and are used (types.go:74, types.go:169, constants.go). *)
Definition bool_text (b : bool) : str := if b then bs "true" else bs "false".

(** String of an enumeration (constants.go), which never fails. *)
Definition enum_text (t : enum) (v : N) : str := match enum_string t v with Some s => s | None => [] end.

(** BankAcct, common.go:308-315 *)
Definition bank_acct_text (n : str * str) (b : BankAcct) : str :=
  plus_v [(bs "XMLName", xml_name_text n); (bs "BankID", BankAcct_BankID b); (bs "BranchID", BankAcct_BranchID b);
    (bs "AcctID", BankAcct_AcctID b); (bs "AcctType", enum_text enum_acctType (BankAcct_AcctType b)); (bs "AcctKey", BankAcct_AcctKey b)].

(** CCAcct, common.go:332-336 *)
Definition cc_acct_text (n : str * str) (c : CCAcct) : str :=
  plus_v [(bs "XMLName", xml_name_text n); (bs "AcctID", CCAcct_AcctID c); (bs "AcctKey", CCAcct_AcctKey c)].

(** InvAcct, common.go:347-351 *)
Definition inv_acct_text (n : str * str) (i : InvAcct) : str :=
  plus_v [(bs "XMLName", xml_name_text n); (bs "BrokerID", InvAcct_BrokerID i); (bs "AcctID", InvAcct_AcctID i)].

(** BankAcctInfo.String, signup.go:77-79; the fields are in signup.go:62-74. The names are
    those of the struct and of its account. *)
Definition bank_info_text (n m : str * str) (b : BankAcctInfo) : str :=
  plus_v [(bs "XMLName", xml_name_text n); (bs "BankAcctFrom", bank_acct_text m (BankAcctInfo_BankAcctFrom b));
    (bs "SupTxDl", bool_text (BankAcctInfo_SupTxDl b)); (bs "XferSrc", bool_text (BankAcctInfo_XferSrc b));
    (bs "XferDest", bool_text (BankAcctInfo_XferDest b)); (bs "MaturityDate", date_string (BankAcctInfo_MaturityDate b));
    (bs "MaturityAmt", amount_string (BankAcctInfo_MaturityAmt b)); (bs "MinBalReq", amount_string (BankAcctInfo_MinBalReq b));
    (bs "AcctClassification", enum_text enum_acctClassification (BankAcctInfo_AcctClassification b));
    (bs "OverdraftLimit", amount_string (BankAcctInfo_OverdraftLimit b)); (bs "SvcStatus", enum_text enum_svcStatus (BankAcctInfo_SvcStatus b))].

(** CCAcctInfo.String, signup.go:95-97; the fields are in signup.go:84-92. *)
Definition cc_info_text (n m : str * str) (c : CCAcctInfo) : str :=
  plus_v [(bs "XMLName", xml_name_text n); (bs "CCAcctFrom", cc_acct_text m (CCAcctInfo_CCAcctFrom c));
    (bs "SupTxDl", bool_text (CCAcctInfo_SupTxDl c)); (bs "XferSrc", bool_text (CCAcctInfo_XferSrc c));
    (bs "XferDest", bool_text (CCAcctInfo_XferDest c));
    (bs "AcctClassification", enum_text enum_acctClassification (CCAcctInfo_AcctClassification c));
    (bs "SvcStatus", enum_text enum_svcStatus (CCAcctInfo_SvcStatus c))].

(** InvAcctInfo.String, signup.go:113-115; the fields are in signup.go:102-110. *)
Definition inv_info_text (n m : str * str) (i : InvAcctInfo) : str :=
  plus_v [(bs "XMLName", xml_name_text n); (bs "InvAcctFrom", inv_acct_text m (InvAcctInfo_InvAcctFrom i));
    (bs "UsProductType", enum_text enum_usProductType (InvAcctInfo_UsProductType i)); (bs "Checking", bool_text (InvAcctInfo_Checking i));
    (bs "SvcStatus", enum_text enum_svcStatus (InvAcctInfo_SvcStatus i)); (bs "InvAcctType", enum_text enum_holderType (InvAcctInfo_InvAcctType i));
    (bs "OptionLevel", InvAcctInfo_OptionLevel i)].
