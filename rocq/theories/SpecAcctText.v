(** Texts that fmt's %+v shows unambiguously (C100). *)
From Verif Require Import GoStr Records.

(** A text without a space, such as an account number. *)
Definition spaceless (s : str) : Prop := ~ In " "%char s.

Definition spaceless_name (n : str * str) : Prop := spaceless (fst n) /\ spaceless (snd n).

Definition bank_acct_spaceless (b : BankAcct) : Prop :=
  spaceless (BankAcct_BankID b) /\ spaceless (BankAcct_BranchID b) /\ spaceless (BankAcct_AcctID b) /\ spaceless (BankAcct_AcctKey b).

Definition cc_acct_spaceless (c : CCAcct) : Prop := spaceless (CCAcct_AcctID c) /\ spaceless (CCAcct_AcctKey c).

Definition inv_acct_spaceless (i : InvAcct) : Prop := spaceless (InvAcct_BrokerID i) /\ spaceless (InvAcct_AcctID i).

(** The text of a struct shows a field with a name and a value. *)
Definition shows (s n v : str) : Prop := exists u w, s = u ++ n ++ ":"%char :: v ++ w.
