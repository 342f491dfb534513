(** C74, C75: what every field of a decoded response is, element by element, and
    that a request can be recovered from the bytes that are sent. *)
From Coq Require Import QArith Bool String.
From Coq Require Import List.
From Verif Require Import GoStr SpecStr GoTime Types Enums EnumTables Records Common Messages Codec Schema Document
  SpecDocument DocumentFacts FilingFacts SpecXml Xml SpecWire Headers SpecHeader HeaderFacts WrittenHeaderFacts Wire SpecDecode Samples
  SpecMarkup MarkupDocs PropsDecode PropsMarkup SpecSgml SgmlRead SpecReading ReadingFacts ReadingLists ReadingDocs WireFacts PropsWire RequestReading.
Close Scope Q_scope.
Close Scope string_scope.
Open Scope list_scope.

(** C74: an element of a message decodes to a message iff its fields are what the
    listing says. *)
Theorem C74_message : forall e kids m,
  reads_as e (Elem (transaction_tag m) kids) m <-> message_says e kids m.
Proof. exact message_read. Qed.
Print Assumptions C74_message.

(** The same for whole documents: the tree, *)
Theorem C74_decode : forall e version ofx r,
  decode_ofx e version ofx = Some r <-> rs_version r = version /\ response_says e ofx r.
Proof. intros e version ofx r. rewrite decode_ofx_iff, ReadingDocs.response_read. reflexivity. Qed.
Print Assumptions C74_decode.

(** and the bytes: ParseResponse accepts exactly the documents that follow one of
    the two grammars with a tree that says a response, and returns that. *)
Theorem C74_parse : forall e s r,
  decode_response e s = Some r <->
  exists n, response_says e n r /\
    (~ looks_like_sgml s /\ xml_document (rs_version r) n s \/
     looks_like_sgml s /\ exists d, sgml_document (rs_version r) n d s).
Proof.
  intros e s r. split.
  - intros H. unfold decode_response in H. destruct (read_document s) as [[v n]|] eqn:E; [|discriminate].
    cbn [bind fst snd] in H. apply C74_decode in H as [Hv H]. exists n. split; [exact H|]. rewrite Hv.
    destruct (guess_xml s) eqn:G.
    + left. assert (G' : ~ looks_like_sgml s) by (rewrite <- guess_sgml_iff, G; discriminate).
      split; [exact G' | apply read_document_iff; assumption].
    + right. apply guess_sgml_iff in G. split; [exact G|]. apply read_sgml_document_iff; assumption.
  - intros (n & H & Hd).
    assert (E : read_document s = Some (rs_version r, n)).
    { destruct Hd as [[G Hd]|[G Hd]]; [apply read_document_iff; assumption | apply read_sgml_document_iff; assumption]. }
    unfold decode_response. rewrite E. cbn [bind fst snd]. apply C74_decode. auto.
Qed.
Print Assumptions C74_parse.

(** A statement with two transactions: its first amount is given twice and the
    last one counts, its second has none. *)
Definition two_transactions : str :=
  bs "<BANKMSGSRSV1><STMTTRNRS><TRNUID>1001<STATUS><CODE>0<SEVERITY>INFO</STATUS><STMTRS><CURDEF>USD<BANKACCTFROM><BANKID>1<ACCTID>2<ACCTTYPE>CHECKING</BANKACCTFROM><BANKTRANLIST><DTSTART>20060101<DTEND>20060115" ++
  bs "<STMTTRN><TRNTYPE>CHECK<DTPOSTED>20060104<TRNAMT>-200.00<FITID>00592<TRNAMT>-1,5</STMTTRN><STMTTRN><TRNTYPE>ATM<DTPOSTED>20060112<FITID> 00 593 </STMTTRN>" ++
  bs "</BANKTRANLIST><LEDGERBAL><BALAMT>200.29<DTASOF>200601141600</LEDGERBAL></STMTRS></STMTTRNRS></BANKMSGSRSV1></OFX>".

Definition transactions_of (r : Response) : list (Q * str) :=
  flat_map (fun m => match m with
    | MsgStatementResponse s =>
        match StatementResponse_BankTranList s with
        | Some l => map (fun t => (Transaction_TrnAmt t, Transaction_FiTID t)) (TransactionList_Transactions l)
        | None => []
        end
    | _ => [] end) (sl_bank (rs_slots r)).

Example C74_case : exists n r,
  decode_response sample_env (case_header ++ sign_on_part ++ two_transactions) = Some r /\
  response_says sample_env n r /\
  transactions_of r = [((-3 # 2)%Q, bs "00592"); (0%Q, bs "00 593")].
Proof.
  assert (T : option_map transactions_of (decode_response sample_env (case_header ++ sign_on_part ++ two_transactions))
    = Some [((-3 # 2)%Q, bs "00592"); (0%Q, bs "00 593")]) by (vm_compute; reflexivity).
  destruct (decode_response sample_env (case_header ++ sign_on_part ++ two_transactions)) as [r|] eqn:E; [|discriminate T].
  destruct (proj1 (C74_parse _ _ _) E) as (n & H & _). exists n, r. split; [reflexivity|]. split; [exact H|].
  cbn [option_map] in T. congruence.
Qed.

(** C75: whoever reads the bytes of a request, with whatever follows them, finds in
    them every field of every message, as the listing says. *)
Theorem C75_request : forall e q q' s rest,
  known_version (rq_version q) -> request_clean q -> request_representable e q' -> request_marshal q = Some (s, q') ->
  exists n, read_document (s ++ rest) = Some (rq_version q, n) /\ request_says e n (rq_signon q') (rq_slots q').
Proof. exact request_sent_says. Qed.
Print Assumptions C75_request.

(** A document says one request only. *)
Theorem C75_unique : forall e n signon signon' slots slots',
  request_says e n signon slots -> request_says e n signon' slots' -> signon = signon' /\ slots = slots'.
Proof. exact request_says_unique. Qed.
Print Assumptions C75_unique.

(** So different requests are sent as different bytes, and a request is not sent as
    the beginning of another. *)
Theorem C75_injective : forall e q1 q2 q1' q2' s rest,
  known_version (rq_version q1) -> known_version (rq_version q2) -> request_clean q1 -> request_clean q2 ->
  request_representable e q1' -> request_representable e q2' ->
  request_marshal q1 = Some (s, q1') -> request_marshal q2 = Some (s ++ rest, q2') ->
  rq_version q1 = rq_version q2 /\ rq_signon q1' = rq_signon q2' /\ rq_slots q1' = rq_slots q2'.
Proof.
  intros e q1 q2 q1' q2' s rest V1 V2 C1 C2 R1 R2 M1 M2.
  destruct (request_sent_says e q1 q1' s rest V1 C1 R1 M1) as (n & E & H).
  destruct (request_sent_says e q2 q2' (s ++ rest) [] V2 C2 R2 M2) as (n' & E' & H').
  rewrite app_nil_r in E'. rewrite E in E'. injection E' as Hv <-. split; [exact Hv|].
  exact (request_says_unique e n _ _ _ _ H H').
Qed.
Print Assumptions C75_injective.

Example C75_case : known_version (rq_version sample_request) /\ request_clean sample_request /\
  exists s q', request_marshal sample_request = Some (s, q') /\ request_representable sample_env q'.
Proof.
  split; [exists (bs "203"); cbn; auto 12|]. split; [exact sample_request_clean|].
  destruct (request_marshal sample_request) as [[s q']|] eqn:E; [|exfalso; revert E; vm_compute; discriminate].
  exists s, q'. split; [reflexivity|].
  assert (Eq : option_map snd (request_marshal sample_request) = Some (sent_request sample_request)) by (vm_compute; reflexivity).
  rewrite E in Eq. injection Eq as ->. split; [apply sample_representable; vm_compute; reflexivity|].
  intros set ms m Hin Hm.
  assert (H : forall m, In m (flat_map snd (request_sets (rq_slots (sent_request sample_request)))) -> message_representable sample_env m).
  { cbn. intros m' H. repeat (destruct H as [<-|H]; [apply sample_representable; vm_compute; reflexivity|]). destruct H. }
  apply H. apply in_flat_map. exists (set, ms). auto.
Qed.
