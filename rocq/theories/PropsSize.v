(** C94: a response is no larger than the document it was read from. *)
From Coq Require Import QArith Lia.
From Verif Require Import GoStr SpecStr SpecXml GoTime Types Enums EnumTables Records Common Messages Codec Schema Document SpecDocument Xml Headers Wire
  SpecSize SizeFacts AmountSizeFacts Samples PropsDecode PropsMarkup PropsReading.
Local Open Scope Z_scope.

(** The structs and the bytes of the strings in a response, all message sets
    together, are not more than the bytes of the document: entities, nested
    elements and repeated elements can not make it grow. *)
Theorem C94_response : forall e s r, decode_response e s = Some r -> (response_size r <= length s)%nat.
Proof. exact response_small. Qed.
Print Assumptions C94_response.

Theorem C94_parse : forall e s r err, parse_response e s = (Some r, err) -> (response_size r <= length s)%nat.
Proof.
  intros e s r err H. unfold parse_response in H. destruct (decode_response e s) as [r'|] eqn:E; [|discriminate].
  injection H as <- _. exact (response_small e s r' E).
Qed.
Print Assumptions C94_parse.

(** In particular there are no more messages than bytes, *)
Theorem C94_messages : forall e s r set ms, decode_response e s = Some r ->
  In (set, ms) (response_sets (rs_slots r)) -> (length ms <= length s)%nat.
Proof.
  intros e s r set ms H Hin. apply response_small in H. unfold response_size in H.
  assert (G : (messages_size ms <= total (map (fun p => messages_size (snd p)) (response_sets (rs_slots r))))%nat).
  { revert Hin. generalize (response_sets (rs_slots r)). intros l. induction l as [|p l IH]; [intros []|].
    intros [->|Hin]; cbn [map total fold_right snd]; [|specialize (IH Hin)]; unfold total in *; lia. }
  assert (K : (length ms <= messages_size ms)%nat).
  { clear. induction ms as [|m ms IH]; cbn [length]; [lia|]. change (messages_size (m :: ms)) with (S (message_size m) + messages_size ms)%nat. lia. }
  lia.
Qed.
Print Assumptions C94_messages.

(** Amounts are different: the numerator and the denominator of an amount may
    have four bits for each byte of the text and thirteen million more, *)
Theorem C94_amount : forall s y, amount_unmarshal s = Some y ->
  Z.abs (Qnum y) < 2 ^ (4 * Z.of_nat (length s) + 13000000) /\ Zpos (Qden y) < 2 ^ (4 * Z.of_nat (length s) + 13000000).
Proof. exact amount_size. Qed.
Print Assumptions C94_amount.

(** and there are texts that use most of it: an exponent makes a number that is
    as long as 300000 bits for each byte. *)
Theorem C94_amount_large : exists s y, amount_unmarshal s = Some y /\ 2 ^ (300000 * Z.of_nat (length s)) <= Qnum y.
Proof. exact amount_large. Qed.
Print Assumptions C94_amount_large.

(** A statement with two transactions. *)
Example C94_case :
  let doc := case_header ++ sign_on_part ++ two_transactions in
  option_map response_size (decode_response sample_env doc) = Some 32%nat /\ length doc = 744%nat.
Proof. vm_compute. split; reflexivity. Qed.
