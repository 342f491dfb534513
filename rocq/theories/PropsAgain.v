(** C99: a response that is written and read again is the same field for field. *)
From Coq Require Import QArith.
From Verif Require Import GoStr SpecStr GoTime SpecNum SpecDate SpecDateText Types Enums EnumTables Records Common Messages Codec Schema Document SpecCodec SpecDocument SpecXml
  SpecWire SpecHeader SpecDecode Wire ClosureDocs Samples SpecAgain AgainFacts AgainDocFacts AgainReadFacts.
Close Scope Q_scope.

(** What DecodeResponse makes of the bytes that Marshal wrote is the response with
    each field as it is read from its own text, and otherwise the same, whatever
    the values of the fields, if each of them can be read. *)
Theorem C99_written : forall e r s rest,
  response_every (readable e) r -> response_clean r -> known_version (rs_version r) ->
  (forall set ms m, In (set, ms) (response_sets (rs_slots r)) -> In m ms -> loanless m) ->
  response_marshal r = Some s -> decode_response e (s ++ rest) = Some (response_changed (again e) r).
Proof. exact response_again. Qed.
Print Assumptions C99_written.

(** A valid response that was read is written and read again as the same response
    up to dates and amounts, each of which is what is read from its own text, on
    any machine whose zone has names that can be read. *)
Theorem C99_read : forall e s r, env_currency e (bs "XXX") = true ->
  (forall i, fst (env_local e i) = [] \/ abbreviation 0 (fst (env_local e i))) ->
  parse_response e s = (Some r, None) -> response_named r ->
  exists b, response_marshal r = Some b /\
    (forall rest, decode_response e (b ++ rest) = Some (response_changed (again e) r)) /\
    response_every (fun l v => l = LDate \/ l = LAmount \/ again e l v = v) r.
Proof. exact read_again. Qed.
Print Assumptions C99_read.

(** A response with a date that has no exact text: the server sends an offset of
    5.34 hours, which is read as 5:20, written as 5.33, and read as 5:19. *)
Definition odd_document : str := bs
  "OFXHEADER:100 DATA:OFXSGML VERSION:103 SECURITY:NONE ENCODING:USASCII CHARSET:1252 COMPRESSION:NONE OLDFILEUID:NONE NEWFILEUID:NONE <OFX><SIGNONMSGSRSV1><SONRS><STATUS><CODE>0<SEVERITY>INFO</STATUS><DTSERVER>20240229[5.34:ABC]<LANGUAGE>ENG</SONRS></SIGNONMSGSRSV1></OFX>".

Example C99_case :
  match parse_response sample_env odd_document with
  | (Some r, None) =>
      date_string (SignonResponse_DtServer (rs_signon r)) = bs "20240229000000.000[5.33:ABC]" /\
      let r' := response_changed (again sample_env) r in
      date_string (SignonResponse_DtServer (rs_signon r')) = bs "20240229000000.000[5.31:ABC]" /\
      match response_marshal r with Some b => decode_response sample_env b = Some r' | None => False end
  | _ => False
  end.
Proof. vm_compute. repeat split. Qed.

Example C99_machine : env_currency sample_env (bs "XXX") = true /\
  (forall i, fst (env_local sample_env i) = [] \/ abbreviation 0 (fst (env_local sample_env i))) /\
  (forall r, rs_slots r = no_messages -> response_named r) /\
  option_map rs_slots (fst (parse_response sample_env odd_document)) = Some no_messages.
Proof.
  split; [reflexivity|]. split; [|split; [|vm_compute; reflexivity]].
  - intros i. right. split; [repeat constructor; cbn; discriminate|right; left; split; [reflexivity|discriminate]].
  - intros r E set ms m H. rewrite E in H. cbn in H. repeat (destruct H as [[= <- <-]|H]; [intros []|]). destruct H.
Qed.
