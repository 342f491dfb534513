(** Model of /repo/common.go except writeHeader (see Headers.v).

    The result of a Valid method is [None] for (true, nil) and [Some err] for
    (false, err); [err] is the text of the error. *)
From Coq Require Import QArith.
From Verif Require Import GoStr GoNum GoRat GoTime Types Enums EnumTables Records StatusTable.
Local Open Scope Z_scope.

Definition validity := option str.
Definition invalid (msg : String.string) : validity := Some (bs msg).

(** if ok, err := a; !ok { return false, err }, then [b]. *)
Definition and_valid (a b : validity) : validity :=
  match a with None => b | Some e => Some e end.
Notation "a ;;; b" := (and_valid a b) (at level 61, right associativity).

Definition check (bad : bool) (msg : String.string) : validity :=
  if bad then invalid msg else None.

(** A loop that returns at the first invalid element. *)
Fixpoint all_valid {A} (f : A -> validity) (l : list A) : validity :=
  match l with
  | [] => None
  | x :: l' => f x ;;; all_valid f l'
  end.

Definition empty (s : str) : bool := Nat.eqb (length s) 0.

(** messageType, common.go:58-98: the message sets, for requests and for
    responses. *)
Inductive msgset :=
| MSignon | MSignup | MBank | MCreditCard | MLoan | MInvStmt | MInterXfer
| MWireXfer | MBillpay | MEmail | MSecList | MPresDir | MPresDlv | MProf | MImage.

Inductive direction := Rq | Rs.

Definition msgtype := (msgset * direction)%type.

Definition msgset_eqb (a b : msgset) : bool :=
  match a, b with
  | MSignon, MSignon | MSignup, MSignup | MBank, MBank | MCreditCard, MCreditCard
  | MLoan, MLoan | MInvStmt, MInvStmt | MInterXfer, MInterXfer | MWireXfer, MWireXfer
  | MBillpay, MBillpay | MEmail, MEmail | MSecList, MSecList | MPresDir, MPresDir
  | MPresDlv, MPresDlv | MProf, MProf | MImage, MImage => true
  | _, _ => false
  end.

Definition msgtype_eqb (a b : msgtype) : bool :=
  msgset_eqb (fst a) (fst b) &&
  match snd a, snd b with Rq, Rq | Rs, Rs => true | _, _ => false end.

(** messageType.String, common.go:100-162. The panic at its end is unreachable:
    messageType is unexported and only the constants are used. *)
Definition msgtype_string (t : msgtype) : str :=
  match t with
  | (MSignon, Rq) => bs "SIGNONMSGSRQV1"
  | (MSignup, Rq) => bs "SIGNUPMSGSRQV1"
  | (MBank, Rq) => bs "BANKMSGSRQV1"
  | (MCreditCard, Rq) => bs "CREDITCARDMSGSRQV1"
  | (MLoan, Rq) => bs "LOANMSGSRQV1"
  | (MInvStmt, Rq) => bs "INVSTMTMSGSRQV1"
  | (MInterXfer, Rq) => bs "INTERXFERMSGSRQV1"
  | (MWireXfer, Rq) => bs "WIREXFERMSGSRQV1"
  | (MBillpay, Rq) => bs "BILLPAYMSGSRQV1"
  | (MEmail, Rq) => bs "EMAILMSGSRQV1"
  | (MSecList, Rq) => bs "SECLISTMSGSRQV1"
  | (MPresDir, Rq) => bs "PRESDIRMSGSRQV1"
  | (MPresDlv, Rq) => bs "PRESDLVMSGSRQV1"
  | (MProf, Rq) => bs "PROFMSGSRQV1"
  | (MImage, Rq) => bs "IMAGEMSGSRQV1"
  | (MSignon, Rs) => bs "SIGNONMSGSRSV1"
  | (MSignup, Rs) => bs "SIGNUPMSGSRSV1"
  | (MBank, Rs) => bs "BANKMSGSRSV1"
  | (MCreditCard, Rs) => bs "CREDITCARDMSGSRSV1"
  | (MLoan, Rs) => bs "LOANMSGSRSV1"
  | (MInvStmt, Rs) => bs "INVSTMTMSGSRSV1"
  | (MInterXfer, Rs) => bs "INTERXFERMSGSRSV1"
  | (MWireXfer, Rs) => bs "WIREXFERMSGSRSV1"
  | (MBillpay, Rs) => bs "BILLPAYMSGSRSV1"
  | (MEmail, Rs) => bs "EMAILMSGSRSV1"
  | (MSecList, Rs) => bs "SECLISTMSGSRSV1"
  | (MPresDir, Rs) => bs "PRESDIRMSGSRSV1"
  | (MPresDlv, Rs) => bs "PRESDLVMSGSRSV1"
  | (MProf, Rs) => bs "PROFMSGSRSV1"
  | (MImage, Rs) => bs "IMAGEMSGSRSV1"
  end.

(** statusMeanings[code]: a map lookup (the keys of a map literal are
    distinct). *)
Fixpoint status_lookup (c : Z) (l : list (Z * (str * str * str))) : option (str * str * str) :=
  match l with
  | [] => None
  | (k, v) :: l' => if k =? c then Some v else status_lookup c l'
  end.

(** Status.Valid, common.go:272-288. *)
Definition status_valid (s : Status) : validity :=
  let sev := Status_Severity s in
  if str_eqb sev (bs "INFO") || str_eqb sev (bs "WARN") || str_eqb sev (bs "ERROR") then
    match status_lookup (Status_Code s) status_meanings with
    | Some (_, severity, _) =>
        check (negb (str_eqb severity sev)) "Unexpected SEVERITY for STATUS>CODE"
    | None => invalid "Unknown OFX status code"
    end
  else invalid "Invalid STATUS>SEVERITY".

(** Status.CodeMeaning, common.go:291-296; [None] is an error. *)
Definition status_code_meaning (s : Status) : option str :=
  match status_lookup (Status_Code s) status_meanings with
  | Some (m, _, _) => Some m
  | None => None
  end.

(** Status.CodeConditions, common.go:300-305. *)
Definition status_code_conditions (s : Status) : option str :=
  match status_lookup (Status_Code s) status_meanings with
  | Some (_, _, c) => Some c
  | None => None
  end.

(** BankAcct.Valid, common.go:318-329. *)
Definition bank_acct_valid (b : BankAcct) : validity :=
  check (empty (BankAcct_BankID b)) "BankAcct.BankID empty" ;;;
  check (empty (BankAcct_AcctID b)) "BankAcct.AcctID empty" ;;;
  check (negb (enum_valid enum_acctType (BankAcct_AcctType b)))
        "Invalid or unspecified BankAcct.AcctType".

(** CCAcct.Valid, common.go:339-344. *)
Definition cc_acct_valid (c : CCAcct) : validity :=
  check (empty (CCAcct_AcctID c)) "CCAcct.AcctID empty".

(** big.Rat.IsInt and Num().Int64() on a normalised fraction: Int64 keeps the
    low 64 bits of the absolute value (math/big: int64(low64(x.abs)), negated
    for a negative number). *)
Definition rat_is_int (q : Q) : bool := Pos.eqb (Qden (Qred q)) 1.
Definition int64_wrap (z : Z) : Z :=
  let v := z mod 2 ^ 64 in if v <? 2 ^ 63 then v else v - 2 ^ 64.
Definition big_int64 (z : Z) : Z :=
  if z <? 0 then int64_wrap (- (int64_wrap (Z.abs z))) else int64_wrap (Z.abs z).

(** CurrSymbol.Valid as a validity. *)
Definition curr_validity (c : str) : validity :=
  check (negb (curr_valid c)) "Invalid CurrSymbol: XXX".

(** UID.Valid as a validity. *)
Definition uid_validity (u : str) : validity :=
  check (negb (uid_valid u)) "UID invalid length".

(** Currency.Valid, common.go:365-372. *)
Definition currency_valid (c : Currency) : validity :=
  check (rat_is_int (Currency_CurRate c) &&
         (big_int64 (Qnum (Qred (Currency_CurRate c))) =? 0))
        "CurRate may not be zero" ;;;
  curr_validity (Currency_CurSym c).
