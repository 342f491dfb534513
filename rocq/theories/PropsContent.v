(** C72: the exact content and the exact bytes of what Marshal writes. *)
From Coq Require Import QArith.
From Verif Require Import GoStr GoTime Types Enums EnumTables Records Messages Codec Schema Document SpecValid SpecDocument
  SpecXml SpecWire SpecHeader Wire SpecLayout SpecContent ContentFacts ContentDocs Samples PropsWire.
Close Scope Q_scope.

(** C72: the element of every message has the content SpecContent lists: these
    children, in this order, with these names and these texts. *)
Theorem C72_message : forall m, encodable m -> encode_message m = Some (message_element m).
Proof. exact message_written. Qed.
Print Assumptions C72_message.

Theorem C72_request_tree : forall q t q', request_tree q = Some (t, q') -> t = request_document q /\ q' = sent_request q.
Proof. exact request_written. Qed.
Print Assumptions C72_request_tree.

Theorem C72_response_tree : forall r t, response_tree r = Some t -> t = response_document r.
Proof. exact response_written. Qed.
Print Assumptions C72_response_tree.

(** All of Request.Marshal: when it succeeds, the bytes it returns, and the
    request it leaves behind. *)
Theorem C72_request : forall q s q', request_marshal q = Some (s, q') <->
  signon_ok (rq_signon q) /\ slots_acceptable (rq_version q) (request_sets (rq_slots q)) /\
  q' = sent_request q /\ request_bytes q s.
Proof. exact request_marshal_iff. Qed.
Print Assumptions C72_request.

(** All of Response.Marshal. *)
Theorem C72_response : forall r s, response_named r ->
  (response_marshal r = Some s <->
   signon_response_ok (rs_signon r) /\ slots_acceptable (rs_version r) (response_sets (rs_slots r)) /\ response_bytes r s).
Proof. exact response_marshal_iff. Qed.
Print Assumptions C72_response.

(** No two files satisfy the specification of the same request. *)
Theorem C72_one_file : forall q s s', request_bytes q s -> request_bytes q s' -> s = s'.
Proof. exact request_bytes_fun. Qed.
Print Assumptions C72_one_file.

Theorem C72_one_response_file : forall r s s', response_bytes r s -> response_bytes r s' -> s = s'.
Proof. exact response_bytes_fun. Qed.
Print Assumptions C72_one_response_file.

Lemma sample_response_named : response_named sample_response.
Proof. intros set ms m Hs Hm. destruct sample_response_clean as [_ H]. exact (proj2 (H set ms m Hs Hm)). Qed.

Definition decodes (e : env) (s : str) : bool := match decode_response e s with Some _ => true | None => false end.

Definition sample_stmt : Message :=
  MsgStatementRequest (mkStatementRequest (bs "123") [] [] sample_acct (Some zero_time) None true false false).

Example C72_case :
  encodable sample_stmt /\
  message_element sample_stmt =
    [Elem (bs "STMTTRNRQ")
      [Elem (bs "TRNUID") [Text (bs "123")];
       Elem (bs "STMTRQ")
         [Elem (bs "BANKACCTFROM")
            [Elem (bs "BANKID") [Text (BankAcct_BankID sample_acct)];
             Elem (bs "ACCTID") [Text (BankAcct_AcctID sample_acct)];
             Elem (bs "ACCTTYPE") [Text (bs "CHECKING")]];
          Elem (bs "INCTRAN")
            [Elem (bs "DTSTART") [Text (date_string zero_time)];
             Elem (bs "INCLUDE") [Text (bs "Y")]]]]] /\
  (exists s q', request_marshal sample_request = Some (s, q')) /\
  (exists s, response_marshal sample_response = Some s) /\ response_named sample_response.
Proof.
  split; [exact I|]. split; [vm_compute; reflexivity|].
  split; [destruct (request_marshal sample_request) as [[s q']|] eqn:E; [eauto | exfalso; revert E; vm_compute; discriminate]|].
  split; [destruct (response_marshal sample_response) as [s|] eqn:E; [eauto | exfalso; revert E; vm_compute; discriminate]|].
  exact sample_response_named.
Qed.
