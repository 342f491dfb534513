(** C96: what is read does not depend on the time zone of the machine. *)
From Coq Require Import QArith.
From Verif Require Import GoStr GoTime Types Enums EnumTables Records Common Messages Codec Schema Document Wire Samples SpecZone ZoneFacts.
Close Scope Q_scope.

(** Two machines that know the same currencies read the same response from the
    same bytes, except for the names of the time zones of dates; or neither can
    read them. *)
Theorem C96_response : forall e1 e2 s, (forall code, env_currency e1 code = env_currency e2 code) ->
  option_map response_unnamed (decode_response e1 s) = option_map response_unnamed (decode_response e2 s).
Proof. exact response_like. Qed.
Print Assumptions C96_response.

(** ParseResponse reports the same error on both, or none. *)
Theorem C96_parse : forall e1 e2 s, (forall code, env_currency e1 code = env_currency e2 code) ->
  option_map response_unnamed (fst (parse_response e1 s)) = option_map response_unnamed (fst (parse_response e2 s)) /\
  snd (parse_response e1 s) = snd (parse_response e2 s).
Proof. exact parse_like. Qed.
Print Assumptions C96_parse.

(** A date is the same instant at the same offset on every machine. If its zones
    have different names then one of them is the name that the zone of a machine
    has at that instant, and the machine's offset is that of the date. *)
Theorem C96_date : forall e1 e2 s a, date_unmarshal e1 s = Some a ->
  exists b, date_unmarshal e2 s = Some b /\ t_ns a = t_ns b /\ t_off a = t_off b /\
    (t_zone a = t_zone b \/ env_local e1 (t_ns a / 1000000000)%Z = (t_zone a, t_off a) \/
     env_local e2 (t_ns b / 1000000000)%Z = (t_zone b, t_off b)).
Proof. exact date_names. Qed.
Print Assumptions C96_date.

(** Whether a response is valid, and why not, does not depend on these names. *)
Theorem C96_valid : forall r, response_valid (response_unnamed r) = response_valid r.
Proof. exact response_valid_unnamed. Qed.
Print Assumptions C96_valid.

(** A response is read in New York and in Bogotá. One of its dates has an offset
    but no zone name, so that it gets the name of the zone of the machine. The
    bytes that are written for the two responses differ, and those written in
    Bogotá, where the zone is named -05, can not be read on any machine. *)
Definition new_york : env := mkEnv (fun _ => (bs "EST", -18000)%Z) (fun _ => true).
Definition bogota : env := mkEnv (fun _ => (bs "-05", -18000)%Z) (fun _ => true).
Definition zone_document : str :=
  bs "<?xml version=""1.0""?><?OFX OFXHEADER=""200"" VERSION=""203"" SECURITY=""NONE"" OLDFILEUID=""NONE"" NEWFILEUID=""NONE""?>" ++
  bs "<OFX><SIGNONMSGSRSV1><SONRS><STATUS><CODE>0</CODE><SEVERITY>INFO</SEVERITY></STATUS>" ++
  bs "<DTSERVER>20240229070500.250[-5]</DTSERVER><LANGUAGE>ENG</LANGUAGE><DTPROFUP>20240101</DTPROFUP></SONRS></SIGNONMSGSRSV1></OFX>".

Definition server_date (o : option Response) : option gotime := option_map (fun r => SignonResponse_DtServer (rs_signon r)) o.

Definition written (o : option Response) : option str :=
  match o with Some r => response_marshal r | None => None end.

Example C96_case :
  let a := decode_response new_york zone_document in
  let b := decode_response bogota zone_document in
  let until o := option_map (fun r => SignonResponse_DtProfUp (rs_signon r)) o in
  option_map date_string (server_date a) = Some (bs "20240229070500.250[-5:EST]") /\
  option_map date_string (server_date b) = Some (bs "20240229070500.250[-5:-05]") /\
  until a = until b /\ option_map response_unnamed a = option_map response_unnamed b /\
  match written a with Some s => decode_response new_york s = a | None => False end /\
  match written b with Some s => decode_response new_york s = None /\ decode_response bogota s = None | None => False end.
Proof. vm_compute. repeat split. Qed.
