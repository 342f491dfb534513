(** C93: a validation error names the first rule that is broken. *)
From Coq Require Import QArith.
From Verif Require Import GoStr GoTime Types Enums EnumTables Records Common Messages Codec Document SpecValid SpecDocument SpecRules RuleFacts Samples PropsValid.
Close Scope Q_scope.

Theorem C93_messages : forall v m text, snd (message_valid m v) = Some text <-> first_broken (message_rules v m) text.
Proof. intros v m. exact (proj2 (reports_iff _ _ (message_reports v m))). Qed.
Print Assumptions C93_messages.

Theorem C93_signon_request : forall r text, snd (signon_request_valid r) = Some text <-> first_broken (signon_rules r) text.
Proof. intros r. exact (proj2 (reports_iff _ _ (signon_reports r))). Qed.
Print Assumptions C93_signon_request.

Theorem C93_signon_response : forall r text, signon_response_valid r = Some text <-> first_broken (signon_response_rules r) text.
Proof. intros r. exact (proj2 (reports_iff _ _ (signon_response_reports r))). Qed.
Print Assumptions C93_signon_response.

(** The parts of messages that can be checked on their own. *)
Theorem C93_parts :
  (forall s text, status_valid s = Some text <-> first_broken (status_rules s) text) /\
  (forall b text, bank_acct_valid b = Some text <-> first_broken (bank_acct_rules b) text) /\
  (forall c text, cc_acct_valid c = Some text <-> first_broken (cc_acct_rules c) text) /\
  (forall c text, currency_valid c = Some text <-> first_broken (currency_rules c) text) /\
  (forall p text, payee_valid p = Some text <-> first_broken (payee_rules p) text) /\
  (forall t v text, transaction_valid t v = Some text <-> first_broken (transaction_rules v t) text) /\
  (forall l v text, transaction_list_valid l v = Some text <-> first_broken (transaction_list_rules v l) text) /\
  (forall t text, pending_transaction_valid t = Some text <-> first_broken (pending_rules t) text) /\
  (forall b text, balance_valid b = Some text <-> first_broken (balance_rules b) text).
Proof.
  repeat split; intros; eapply reports_iff; first [eassumption|idtac];
    first [apply status_reports|apply bank_acct_reports|apply cc_acct_reports|apply currency_reports|apply payee_reports|apply transaction_reports
          |apply transaction_list_reports|apply pending_reports|apply balance_reports].
Qed.
Print Assumptions C93_parts.

(** Response.Valid (C32) reports for each message the first rule that message breaks,
    and nothing else. *)
Theorem C93_response : forall r text, In text (problems r) <->
  first_broken (signon_response_rules (rs_signon r)) text \/
  exists set ms m, In (set, ms) (response_sets (rs_slots r)) /\ In m ms /\ first_broken (message_rules (rs_version r) m) text.
Proof. exact problems_in. Qed.
Print Assumptions C93_response.

(** A message is valid if it breaks none, and otherwise there is one answer. *)
Theorem C93_all : forall v m, (message_ok v m <-> Forall fst (message_rules v m)) /\
  forall t t', first_broken (message_rules v m) t -> first_broken (message_rules v m) t' -> t = t'.
Proof.
  intros v m. split.
  - rewrite <- (proj1 (reports_iff _ _ (message_reports v m))). symmetry. apply ValidFacts.message_valid_iff.
  - intros t t' H H'. exact (broken_one _ _ H' _ H).
Qed.
Print Assumptions C93_all.

(** A statement with a transaction that breaks a rule, and a balance without a type:
    the transaction comes first. *)
Definition faulty_statement : StatementResponse :=
  mkStatementResponse (bs "1001") (mkStatus 0 (bs "INFO") []) [] (bs "USD") (mkBankAcct (bs "318398732") [] (bs "78346129") 1 [])
    (Some (mkTransactionList (mkTime 1 0 (bs "GMT")) (mkTime 2 0 (bs "GMT")) [sample_transaction 0; sample_transaction 1]))
    None (20029 # 100) (mkTime 5 0 (bs "GMT")) (Some (1 # 2)%Q) (Some (mkTime 5 0 (bs "GMT")))
    None None [mkBalance (bs "a") (bs "b") 0 1 None None] [].

Example C93_case :
  first_broken (message_rules OfxVersion102 (MsgStatementResponse faulty_statement)) (bs "Transaction.CorrectFiTID nonempty but CorrectAction invalid") /\
  first_broken (payee_rules (mkPayee (bs "Shop") (bs "Street 1") [] [] [] (bs "IL") [] [] [])) (bs "Payee.City empty") /\
  first_broken (signon_response_rules (mkSignonResponse (mkStatus 0 (bs "ERROR") []) zero_time [] None (bs "ENG") None None [] [] [] [])) (bs "Unexpected SEVERITY for STATUS>CODE").
Proof.
  split; [apply C93_messages; vm_compute; reflexivity|]. split; [apply C93_parts; vm_compute; reflexivity|].
  apply C93_signon_response. vm_compute. reflexivity.
Qed.
