(** C100: the text of the information on an account says all of it. *)
From Coq Require Import QArith List.
From Verif Require Import GoStr SpecDate GoTime Types Enums EnumTables Records SpecCodec Samples AcctText SpecAcctText AcctTextFacts.
Close Scope Q_scope.

(** Texts are the same only for the same information, if the texts of the account and the
    XML names have no spaces, the amounts no more than 100 decimals and the date is
    exact. *)
Theorem C100_bank : forall e n m b n' m' b',
  spaceless_name n -> spaceless_name m -> bank_acct_spaceless (BankAcctInfo_BankAcctFrom b) ->
  spaceless_name n' -> spaceless_name m' -> bank_acct_spaceless (BankAcctInfo_BankAcctFrom b') ->
  date_ok e (BankAcctInfo_MaturityDate b) -> date_ok e (BankAcctInfo_MaturityDate b') ->
  amount_ok (BankAcctInfo_MaturityAmt b) -> amount_ok (BankAcctInfo_MinBalReq b) -> amount_ok (BankAcctInfo_OverdraftLimit b) ->
  amount_ok (BankAcctInfo_MaturityAmt b') -> amount_ok (BankAcctInfo_MinBalReq b') -> amount_ok (BankAcctInfo_OverdraftLimit b') ->
  bank_info_text n m b = bank_info_text n' m' b' -> n = n' /\ m = m' /\ b = b'.
Proof. exact bank_info_told. Qed.
Print Assumptions C100_bank.

Theorem C100_cc : forall n m c n' m' c',
  spaceless_name n -> spaceless_name m -> cc_acct_spaceless (CCAcctInfo_CCAcctFrom c) ->
  spaceless_name n' -> spaceless_name m' -> cc_acct_spaceless (CCAcctInfo_CCAcctFrom c') ->
  cc_info_text n m c = cc_info_text n' m' c' -> n = n' /\ m = m' /\ c = c'.
Proof. exact cc_info_told. Qed.
Print Assumptions C100_cc.

Theorem C100_inv : forall n m i n' m' i',
  spaceless_name n -> spaceless_name m -> inv_acct_spaceless (InvAcctInfo_InvAcctFrom i) ->
  spaceless_name n' -> spaceless_name m' -> inv_acct_spaceless (InvAcctInfo_InvAcctFrom i') ->
  inv_info_text n m i = inv_info_text n' m' i' -> n = n' /\ m = m' /\ i = i'.
Proof. exact inv_info_told. Qed.
Print Assumptions C100_inv.

(** Whatever the fields are, their values are in the text, each after its name: texts as
    they are, booleans as true and false, enumerations, dates and amounts as what their
    own String gives. *)
Theorem C100_shown : forall n m,
  (forall b, let a := BankAcctInfo_BankAcctFrom b in let s := bank_info_text n m b in
     shows s (bs "BankID") (BankAcct_BankID a) /\ shows s (bs "BranchID") (BankAcct_BranchID a) /\
     shows s (bs "AcctID") (BankAcct_AcctID a) /\ shows s (bs "AcctKey") (BankAcct_AcctKey a) /\
     (forall t, enum_string enum_acctType (BankAcct_AcctType a) = Some t -> shows s (bs "AcctType") t) /\
     shows s (bs "SupTxDl") (if BankAcctInfo_SupTxDl b then bs "true" else bs "false") /\
     shows s (bs "XferSrc") (if BankAcctInfo_XferSrc b then bs "true" else bs "false") /\
     shows s (bs "XferDest") (if BankAcctInfo_XferDest b then bs "true" else bs "false") /\
     shows s (bs "MaturityDate") (date_string (BankAcctInfo_MaturityDate b)) /\
     shows s (bs "MaturityAmt") (amount_string (BankAcctInfo_MaturityAmt b)) /\
     shows s (bs "MinBalReq") (amount_string (BankAcctInfo_MinBalReq b)) /\
     (forall t, enum_string enum_acctClassification (BankAcctInfo_AcctClassification b) = Some t -> shows s (bs "AcctClassification") t) /\
     shows s (bs "OverdraftLimit") (amount_string (BankAcctInfo_OverdraftLimit b)) /\
     (forall t, enum_string enum_svcStatus (BankAcctInfo_SvcStatus b) = Some t -> shows s (bs "SvcStatus") t)) /\
  (forall c, let a := CCAcctInfo_CCAcctFrom c in let s := cc_info_text n m c in
     shows s (bs "AcctID") (CCAcct_AcctID a) /\ shows s (bs "AcctKey") (CCAcct_AcctKey a) /\
     shows s (bs "SupTxDl") (if CCAcctInfo_SupTxDl c then bs "true" else bs "false") /\
     shows s (bs "XferSrc") (if CCAcctInfo_XferSrc c then bs "true" else bs "false") /\
     shows s (bs "XferDest") (if CCAcctInfo_XferDest c then bs "true" else bs "false") /\
     (forall t, enum_string enum_acctClassification (CCAcctInfo_AcctClassification c) = Some t -> shows s (bs "AcctClassification") t) /\
     (forall t, enum_string enum_svcStatus (CCAcctInfo_SvcStatus c) = Some t -> shows s (bs "SvcStatus") t)) /\
  (forall i, let a := InvAcctInfo_InvAcctFrom i in let s := inv_info_text n m i in
     shows s (bs "BrokerID") (InvAcct_BrokerID a) /\ shows s (bs "AcctID") (InvAcct_AcctID a) /\
     (forall t, enum_string enum_usProductType (InvAcctInfo_UsProductType i) = Some t -> shows s (bs "UsProductType") t) /\
     shows s (bs "Checking") (if InvAcctInfo_Checking i then bs "true" else bs "false") /\
     (forall t, enum_string enum_svcStatus (InvAcctInfo_SvcStatus i) = Some t -> shows s (bs "SvcStatus") t) /\
     (forall t, enum_string enum_holderType (InvAcctInfo_InvAcctType i) = Some t -> shows s (bs "InvAcctType") t) /\
     shows s (bs "OptionLevel") (InvAcctInfo_OptionLevel i)).
Proof.
  intros n m.
  assert (P : forall (n v : str) l, In (n, v) l -> shows (plus_v l) n v) by exact plus_v_shows.
  assert (Q : forall t v s, enum_string t v = Some s -> s = enum_text t v) by (intros t v s E; unfold enum_text; rewrite E; reflexivity).
  split; [|split]; [intros b a s|intros c a s|intros i a s]; subst s a;
    repeat match goal with |- _ /\ _ => split end;
    repeat match goal with |- forall t, enum_string _ _ = _ -> _ => let E := fresh in intros ? E; rewrite (Q _ _ _ E) end;
    unfold bank_info_text, cc_info_text, inv_info_text;
    first [ apply P; cbn [In]; repeat first [left; reflexivity | right]; fail
          | eapply shows_inner; [apply P; right; left; reflexivity|]; apply P; cbn [In]; repeat first [left; reflexivity | right]; fail ].
Qed.
Print Assumptions C100_shown.

Definition sample_bank_info (id : str) : BankAcctInfo :=
  mkBankAcctInfo (mkBankAcct (bs "318398732") [] id 1 []) true false false sample_date (1 # 2) 0 0 100 3.

Definition names : (str * str) * (str * str) := (([], bs "BANKACCTINFO"), ([], bs "BANKACCTFROM")).

Example C100_case :
  let b := sample_bank_info (bs "78346129") in
  spaceless_name (fst names) /\ spaceless_name (snd names) /\ bank_acct_spaceless (BankAcctInfo_BankAcctFrom b) /\
  date_ok sample_env (BankAcctInfo_MaturityDate b) /\ amount_ok (BankAcctInfo_MaturityAmt b) /\ amount_ok (BankAcctInfo_MinBalReq b) /\
  bank_info_text (fst names) (snd names) b =
    bs "{XMLName:{Space: Local:BANKACCTINFO} BankAcctFrom:{XMLName:{Space: Local:BANKACCTFROM} BankID:318398732 BranchID: AcctID:78346129 AcctType:CHECKING AcctKey:} SupTxDl:true XferSrc:false XferDest:false MaturityDate:" ++
    date_string sample_date ++ bs " MaturityAmt:0.5 MinBalReq:0 AcctClassification:invalid acctClassification (0) OverdraftLimit:100 SvcStatus:ACTIVE}".
Proof.
  cbv zeta.
  assert (Z : amount_ok 0) by (split; [reflexivity|exists 0%Z; vm_compute; reflexivity]).
  assert (S : forall s, forallb (fun c => negb (Ascii.eqb c " ")) s = true -> spaceless s).
  { intros s E H. rewrite forallb_forall in E. specialize (E _ H). discriminate. }
  split; [split; apply S; reflexivity|]. split; [split; apply S; reflexivity|].
  split; [repeat split; apply S; reflexivity|]. split; [exact sample_date_ok|].
  split; [split; [reflexivity|exists (5 * 10 ^ 99)%Z; vm_compute; reflexivity]|]. split; [exact Z|].
  vm_compute. reflexivity.
Qed.

(** Without the condition on spaces the texts of different cards can be the same. *)
Example C100_space :
  let info id key := mkCCAcctInfo (mkCCAcct id key) true false false 1 1 in
  cc_info_text ([], []) ([], []) (info (bs "1 AcctKey:2") []) = cc_info_text ([], []) ([], []) (info (bs "1") (bs "2 AcctKey:")).
Proof. vm_compute. reflexivity. Qed.
