(** C98: writing and reading a response again settles. *)
From Coq Require Import QArith.
From Verif Require Import GoStr SpecStr GoTime SpecNum SpecDate SpecDateText Types Enums EnumTables Records Common Messages Codec Schema Document SpecCodec SpecDocument SpecXml
  SpecWire SpecHeader SpecDecode Wire Samples SpecAgain AgainReadFacts SettleDocFacts.
Close Scope Q_scope.

(** A valid response that was read is written and read as a response that is
    written and read as a response that is written and read as itself, on a
    machine whose zone has names that can be read, as long as all are valid. They
    are the response with each field as it is read from its own text. *)
Theorem C98_response : forall e s r, env_currency e (bs "XXX") = true ->
  (forall i, fst (env_local e i) = [] \/ abbreviation (snd (env_local e i)) (fst (env_local e i))) ->
  parse_response e s = (Some r, None) -> response_named r ->
  let r1 := response_changed (again e) r in
  let r2 := response_changed (again e) r1 in
  response_valid r1 = None -> response_valid r2 = None ->
  exists b b1 b2, response_marshal r = Some b /\ response_marshal r1 = Some b1 /\ response_marshal r2 = Some b2 /\
    forall rest, parse_response e (b ++ rest) = (Some r1, None) /\ parse_response e (b1 ++ rest) = (Some r2, None) /\
      parse_response e (b2 ++ rest) = (Some r2, None).
Proof. exact responses_settle. Qed.
Print Assumptions C98_response.

Definition dated_document (date : str) : str := bs
  "OFXHEADER:100 DATA:OFXSGML VERSION:103 SECURITY:NONE ENCODING:USASCII CHARSET:1252 COMPRESSION:NONE OLDFILEUID:NONE NEWFILEUID:NONE <OFX><SIGNONMSGSRSV1><SONRS><STATUS><CODE>0<SEVERITY>INFO</STATUS><DTSERVER>" ++
  date ++ bs "<LANGUAGE>ENG</SONRS></SIGNONMSGSRSV1></OFX>".

(** A response that changes twice. *)
Example C98_response_case :
  match parse_response sample_env (dated_document (bs "20240229[5.34:ABC]")) with
  | (Some r, None) =>
      let r1 := response_changed (again sample_env) r in
      let r2 := response_changed (again sample_env) r1 in
      let text r := date_string (SignonResponse_DtServer (rs_signon r)) in
      response_valid r1 = None /\ response_valid r2 = None /\ rs_slots r = no_messages /\
      text r = bs "20240229000000.000[5.33:ABC]" /\ text r1 = bs "20240229000000.000[5.31:ABC]" /\ text r2 = bs "20240229000000.000[5.30:ABC]"
  | _ => False
  end.
Proof. vm_compute. repeat split. Qed.

(** All have to be valid: the date of this balance is a minute before the date that
    stands for no date, and is that date once it has been written and read. *)
Definition balance_document (date : str) : str := bs
  "OFXHEADER:100 DATA:OFXSGML VERSION:103 SECURITY:NONE ENCODING:USASCII CHARSET:1252 COMPRESSION:NONE OLDFILEUID:NONE NEWFILEUID:NONE <OFX><SIGNONMSGSRSV1><SONRS><STATUS><CODE>0<SEVERITY>INFO</STATUS><DTSERVER>20060115<LANGUAGE>ENG</SONRS></SIGNONMSGSRSV1>" ++
  bs "<BANKMSGSRSV1><STMTTRNRS><TRNUID>1001<STATUS><CODE>0<SEVERITY>INFO</STATUS><STMTRS><CURDEF>USD<BANKACCTFROM><BANKID>1<ACCTID>2<ACCTTYPE>CHECKING</BANKACCTFROM><LEDGERBAL><BALAMT>200.29<DTASOF>" ++
  date ++ bs "</LEDGERBAL></STMTRS></STMTTRNRS></BANKMSGSRSV1></OFX>".

Definition outcome {A} (x : option Response * option A) : option (bool * nat) :=
  match x with (Some r, err) => Some (match err with None => true | Some _ => false end, length (sl_bank (rs_slots r))) | (None, _) => None end.

Example C98_invalid_case :
  let read s := parse_response sample_env s in
  outcome (read (balance_document (bs "00010101051900[5.34:ABC]"))) = Some (true, 1) /\
  match read (balance_document (bs "00010101051900[5.34:ABC]")) with
  | (Some r, _) => match response_marshal r with Some b => outcome (read b) | None => None end
  | _ => None
  end = Some (false, 1).
Proof. split; vm_compute; reflexivity. Qed.
