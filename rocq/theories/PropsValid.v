(** C18, C19, C37-C40: the validity checks. *)
From Coq Require Import QArith.
From Verif Require Import GoStr GoTime Types EnumTables Records StatusTable Common Messages SpecValid
  ValidFacts.
Local Open Scope Z_scope.

(** C18: a status is valid iff its code is in the table with this severity. *)
Theorem C18_status_valid : forall s, status_valid s = None <-> status_ok s.
Proof. exact status_valid_iff. Qed.
Print Assumptions C18_status_valid.

Theorem C18_meaning_known : forall s,
  (exists t, status_code_meaning s = Some t) <-> known_code (Status_Code s).
Proof. exact status_meaning_iff. Qed.
Print Assumptions C18_meaning_known.

Theorem C18_conditions_known : forall s,
  (exists t, status_code_conditions s = Some t) <-> known_code (Status_Code s).
Proof. exact status_conditions_iff. Qed.
Print Assumptions C18_conditions_known.

Theorem C18_texts : forall c m sev k sv msg, In (c, (m, sev, k)) status_meanings ->
  status_code_meaning (mkStatus c sv msg) = Some m /\
  status_code_conditions (mkStatus c sv msg) = Some k.
Proof. exact status_texts. Qed.
Print Assumptions C18_texts.

Example C18_case :
  status_ok (mkStatus 15500 (bs "ERROR") []) /\
  status_valid (mkStatus 15500 (bs "ERROR") []) = None /\
  status_valid (mkStatus 15500 (bs "WARN") []) = Some (bs "Unexpected SEVERITY for STATUS>CODE") /\
  status_valid (mkStatus 2013 (bs "ERROR") []) = Some (bs "Unknown OFX status code") /\
  status_code_meaning (mkStatus 15500 [] []) = Some (bs "Signon invalid").
Proof.
  split; [right; right; split; [cbn; tauto|reflexivity]|]. repeat split; vm_compute; reflexivity.
Qed.

(** C19: sign-on requests. *)
Theorem C19_signon_valid : forall r, snd (signon_request_valid r) = None <-> signon_ok r.
Proof. exact signon_valid_iff. Qed.
Print Assumptions C19_signon_valid.

Theorem C19_signon_effect : forall r r', signon_request_valid r = (r', None) ->
  same_but_language r' r /\
  SignonRequest_Language r' =
    (match SignonRequest_Language r with [] => bs "ENG" | l => l end) /\
  signon_request_valid r' = (r', None).
Proof. exact signon_valid_after. Qed.
Print Assumptions C19_signon_effect.

Example C19_case :
  let r := mkSignonRequest zero_time (bs "user") (bs "secret") [] false [] (bs "ORG") (bs "1")
             (bs "OFXGO") (bs "0001") [] in
  signon_ok r /\ snd (signon_request_valid r) = None /\
  SignonRequest_Language (fst (signon_request_valid r)) = bs "ENG".
Proof.
  cbv zeta. split; [apply signon_valid_iff; reflexivity|]. split; vm_compute; reflexivity.
Qed.

(** C37 is false of the code: a transaction acceptable in every other respect
    is refused because its correction has a valid action, and accepted with an
    invalid one. *)
Definition sample_transaction (action : N) : Transaction :=
  mkTransaction TrnTypeDebit (mkTime 1 0 (bs "GMT")) None None (-5 # 1) (bs "id1")
    (bs "id0") action [] [] [] 0 [] [] None [] None None [] [] None None 0%N.

Theorem C37_correction_refuted : exists t t' v,
  transaction_ok (OfxVersion220 <=? v)%N t /\ transaction_valid t v <> None /\
  ~ transaction_ok (OfxVersion220 <=? v)%N t' /\ transaction_valid t' v = None.
Proof.
  exists (sample_transaction 1), (sample_transaction 9), OfxVersion220.
  assert (H9 : transaction_valid (sample_transaction 9) OfxVersion220 = None)
    by (vm_compute; reflexivity).
  assert (H0 : transaction_ok_but_correction currency_accepted (OfxVersion220 <=? OfxVersion220)%N
                 (sample_transaction 1)).
  { apply transaction_valid_iff in H9. destruct H9 as [H _]. exact H. }
  split; [split; [exact H0|intros _; cbv; split; discriminate]|].
  split; [vm_compute; discriminate|].
  split; [|exact H9].
  intros [_ H]. destruct H as [_ H]; [discriminate|]. apply H. reflexivity.
Qed.
Print Assumptions C37_correction_refuted.

(** What does hold: transactions that correct nothing are judged as specified,
    and exactly the corrections with a valid action are refused. *)
Theorem C37_no_correction_partial : forall t v, Transaction_CorrectFiTID t = [] ->
  (transaction_valid t v = None <-> transaction_ok (OfxVersion220 <=? v)%N t).
Proof.
  intros t v H. rewrite (transaction_valid_no_correction t v H).
  unfold transaction_ok, correction_given. rewrite H. intuition congruence.
Qed.
Print Assumptions C37_no_correction_partial.

Theorem C37_transaction_accepted : forall t v,
  transaction_valid t v = None <-> transaction_accepted (OfxVersion220 <=? v)%N t.
Proof. exact transaction_valid_iff. Qed.
Print Assumptions C37_transaction_accepted.

(** C38: statements. *)
Theorem C38_statement_valid : forall r v, statement_response_valid r v = None <->
  statement_ok (transaction_accepted (OfxVersion220 <=? v)%N) currency_accepted
    (OfxVersion220 <=? v)%N r.
Proof. exact statement_valid_iff. Qed.
Print Assumptions C38_statement_valid.

Definition sample_statement : StatementResponse :=
  mkStatementResponse (bs "1001") (mkStatus 0 (bs "INFO") []) [] (bs "USD")
    (mkBankAcct (bs "318398732") [] (bs "78346129") 1 [])
    (Some (mkTransactionList (mkTime 1 0 (bs "GMT")) (mkTime 2 0 (bs "GMT"))
             [sample_transaction 0; sample_transaction 7]))
    None (20029 # 100) (mkTime 5 0 (bs "GMT")) (Some (1 # 2)) (Some (mkTime 5 0 (bs "GMT")))
    None None [mkBalance (bs "a") (bs "b") 1 1 None None] [].

Example C38_case : statement_response_valid sample_statement OfxVersion102 = None /\
  statement_ok (transaction_accepted false) currency_accepted false sample_statement.
Proof.
  assert (H : statement_response_valid sample_statement OfxVersion102 = None)
    by (vm_compute; reflexivity).
  split; [exact H|]. apply statement_valid_iff in H. exact H.
Qed.

(** C39: the version gates, and monotonicity in the version for every message. *)
Theorem C39_gates :
  (forall r v, StatementRequest_IncludePending r = true -> (v < OfxVersion220)%N ->
     statement_request_valid r v <> None) /\
  (forall r v, StatementRequest_IncTranImg r = true -> (v < OfxVersion210)%N ->
     statement_request_valid r v <> None) /\
  (forall r v, StatementResponse_BankTranListP r <> None -> (v < OfxVersion220)%N ->
     statement_response_valid r v <> None) /\
  (forall t v, Transaction_ImageData t <> [] -> (v < OfxVersion220)%N ->
     transaction_valid t v <> None).
Proof.
  exact (conj gate_pending (conj gate_tran_img (conj gate_pending_list gate_image_data))).
Qed.
Print Assumptions C39_gates.

Theorem C39_request_valid : forall r v, statement_request_valid r v = None <->
  uid_ok (StatementRequest_TrnUID r) /\
  (StatementRequest_IncludePending r = true -> (OfxVersion220 <= v)%N) /\
  (StatementRequest_IncTranImg r = true -> (OfxVersion210 <= v)%N) /\
  bank_acct_ok (StatementRequest_BankAcctFrom r).
Proof. exact statement_request_valid_iff. Qed.
Print Assumptions C39_request_valid.

Theorem C39_monotone : forall m v v', (v <= v')%N ->
  snd (message_valid m v) = None -> snd (message_valid m v') = None.
Proof. exact message_valid_mono. Qed.
Print Assumptions C39_monotone.

Example C39_case :
  let r := mkStatementRequest (bs "1") [] [] (mkBankAcct (bs "1") [] (bs "2") 1 []) None None
             true true true in
  statement_request_valid r OfxVersion211 <> None /\
  statement_request_valid r OfxVersion220 = None /\
  snd (message_valid (MsgStatementResponse sample_statement) OfxVersion102) = None.
Proof. cbv zeta. split; [vm_compute; discriminate|]. split; vm_compute; reflexivity. Qed.

(** C40 is false of the code for rates that are multiples of 2^64. *)
Theorem C40_currency_refuted : exists c, currency_ok c /\ currency_valid c <> None.
Proof.
  exists (mkCurrency (inject_Z (2 ^ 64)) (bs "USD")). split.
  - split; [discriminate|]. discriminate.
  - vm_compute. discriminate.
Qed.
Print Assumptions C40_currency_refuted.

Theorem C40_currency_valid_partial : forall c, Z.abs (Qnum (Qred (Currency_CurRate c))) < 2 ^ 64 ->
  (currency_valid c = None <-> currency_ok c).
Proof. exact currency_valid_small. Qed.
Print Assumptions C40_currency_valid_partial.

Theorem C40_currency_accepted : forall c, currency_valid c = None <-> currency_accepted c.
Proof. exact currency_valid_iff. Qed.
Print Assumptions C40_currency_accepted.

Example C40_case : currency_valid (mkCurrency (3 # 4) (bs "EUR")) = None /\
  currency_valid (mkCurrency 0 (bs "EUR")) <> None /\
  Z.abs (Qnum (Qred (3 # 4))) < 2 ^ 64.
Proof. split; [vm_compute; reflexivity|]. split; [vm_compute; discriminate|reflexivity]. Qed.

(** C71: the validity of every message. *)
Theorem C71_message : forall m v, snd (message_valid m v) = None <-> message_ok v m.
Proof. exact message_valid_iff. Qed.
Print Assumptions C71_message.

Theorem C71_signon_response : forall r, signon_response_valid r = None <-> signon_response_ok r.
Proof. exact signon_response_valid_iff. Qed.
Print Assumptions C71_signon_response.

Example C71_case :
  message_ok OfxVersion102 (MsgStatementResponse sample_statement) /\
  message_ok OfxVersion203 (MsgProfileRequest (mkProfileRequest (bs "1") [] [] [] zero_time)) /\
  ~ message_ok OfxVersion203 (MsgProfileRequest (mkProfileRequest [] [] [] [] zero_time)) /\
  signon_response_ok (mkSignonResponse (mkStatus 0 (bs "INFO") []) zero_time [] None (bs "ENG") None None [] [] [] []).
Proof.
  split; [apply message_valid_iff; vm_compute; reflexivity|].
  split; [apply message_valid_iff; vm_compute; reflexivity|].
  split; [intros H; apply message_valid_iff in H; revert H; vm_compute; discriminate|].
  apply signon_response_valid_iff. vm_compute. reflexivity.
Qed.
