(** C20-C23, C55: the header of a document. *)
From Coq Require Import QArith Lia Bool ZifyBool ZifyNat ZifyN.
From Verif Require Import GoStr SpecStr GoTime Types Enums EnumTables Records Messages Codec Schema Document
  Xml Headers SpecHeader HeaderFacts WrittenHeaderFacts Wire WireFacts Samples.
Close Scope Q_scope.

(** C20: for the versions the library knows, and only for those, there is a
    header. *)
Theorem C20_every_version : forall v crlf, known_version v <-> exists h, write_header v crlf = Some h.
Proof. exact known_version_iff. Qed.
Print Assumptions C20_every_version.

(** C20: a document that starts with the header of a version is taken for SGML iff
    the version is below 200. *)
Theorem C20_dialect : forall v crlf h body, write_header v crlf = Some h ->
  guess_xml (h ++ bs "<" ++ body) = negb (v <? OfxVersion200)%N.
Proof. exact written_dialect. Qed.
Print Assumptions C20_dialect.

(** C20: reading the header yields its version and leaves the body. *)
Theorem C20_sgml : forall v crlf h body, write_header v crlf = Some h -> (v < OfxVersion200)%N ->
  read_sgml_headers (h ++ bs "<" ++ body) = Some (v, bs "<" ++ body).
Proof. exact written_sgml_body. Qed.
Print Assumptions C20_sgml.

(** After the XML header the reader is at the line end before the body. *)
Theorem C20_xml : forall v crlf h body, write_header v crlf = Some h -> (OfxVersion200 <= v)%N ->
  read_xml_headers (lex true (h ++ body)) =
  Some (v, lex true ((if crlf then [cr; nl] else [nl]) ++ body)).
Proof. exact written_xml_body. Qed.
Print Assumptions C20_xml.

Example C20_case :
  option_map (fun h => read_sgml_headers (h ++ bs "<OFX>")) (write_header OfxVersion151 true) = Some (Some (OfxVersion151, bs "<OFX>")) /\
  option_map (fun h => read_xml_headers (lex true (h ++ bs "<OFX>"))) (write_header OfxVersion211 false) =
    Some (Some (OfxVersion211, [TChar [nl]; TStart [] (bs "OFX")])) /\
  write_header 12 false = None.
Proof. split; [vm_compute; reflexivity|]. split; vm_compute; reflexivity. Qed.

(** C21: if a document that looks like SGML is decoded, it starts with an SGML
    header for the version of the response. *)
Theorem C21_sgml_sound : forall e s r, looks_like_sgml s -> decode_response e s = Some r ->
  exists h body, s = h ++ bs "<" ++ body /\ sgml_header_for (rs_version r) h /\ length h < 1024.
Proof. exact decoded_sgml_header. Qed.
Print Assumptions C21_sgml_sound.

Theorem C21_header : forall s v rest, read_sgml_headers s = Some (v, rest) ->
  exists h, s = h ++ rest /\ sgml_header_for v h /\ (exists r, rest = bs "<" ++ r) /\ length h < 1024.
Proof. exact sgml_header_sound. Qed.
Print Assumptions C21_header.

(** C22: every SGML header is accepted, whatever the white space. *)
Theorem C22_sgml_complete : forall v h body, sgml_header_for v h -> length h < 1024 ->
  looks_like_sgml (h ++ bs "<" ++ body) /\
  read_sgml_headers (h ++ bs "<" ++ body) = Some (v, bs "<" ++ body).
Proof. exact sgml_header_complete. Qed.
Print Assumptions C22_sgml_complete.

(** The version is determined by the header. *)
Theorem C22_version_unique : forall v v' h, sgml_header_for v h -> sgml_header_for v' h -> v = v'.
Proof. exact sgml_version_unique. Qed.
Print Assumptions C22_version_unique.

(** A header on one line with odd white space, and one that names TYPE1 security. *)
Example C22_case :
  let header := bs "OFXHEADER:100DATA: OFXSGML VERSION:  103" ++ [cr; nl] ++
    bs "SECURITY:TYPE1 ENCODING:UTF-8 CHARSET:8859-1COMPRESSION:NONE OLDFILEUID:NONE NEWFILEUID:a-b_c" ++ [nl; nl] in
  sgml_header_for OfxVersion103 header /\ length header < 1024.
Proof.
  cbv zeta. 
  match goal with |- sgml_header_for _ ?h /\ _ =>
    assert (E : read_sgml_headers (h ++ bs "<") = Some (OfxVersion103, bs "<")) by (vm_compute; reflexivity);
    apply sgml_header_sound in E as (h' & E & H & _ & Hl); apply app_inj_tail in E as [E _]; rewrite E; auto
  end.
Qed.

(** Such a header with another OFXHEADER, or longer than the window, is refused. *)
Example C21_case :
  read_sgml_headers (bs "OFXHEADER:101DATA: OFXSGML VERSION:103SECURITY:NONE ENCODING:A CHARSET:1 COMPRESSION:NONE OLDFILEUID:N NEWFILEUID:N<") = None /\
  read_sgml_headers (bs "OFXHEADER:100DATA: OFXSGML VERSION:200SECURITY:NONE ENCODING:A CHARSET:1 COMPRESSION:NONE OLDFILEUID:N NEWFILEUID:N<") = None /\
  read_sgml_headers (bs "OFXHEADER:100DATA: OFXSGML VERSION:102SECURITY:NONE ENCODING:A CHARSET:1 COMPRESSION:NONE OLDFILEUID:N NEWFILEUID:N<") = Some (OfxVersion102, bs "<").
Proof. split; [vm_compute; reflexivity|]. split; vm_compute; reflexivity. Qed.

(** C23: if a document that does not look like SGML is decoded, its first tokens
    are an XML declaration and an OFX instruction for the version of the
    response. *)
Theorem C23_xml_sound : forall e s r, ~ looks_like_sgml s -> decode_response e s = Some r ->
  exists b1 decl b2 inst rest,
    lex true s = b1 ++ TProc (bs "xml") decl :: b2 ++ TProc (bs "OFX") inst :: rest /\
    Forall blank_token b1 /\ Forall blank_token b2 /\ xml_header_for (rs_version r) inst.
Proof. exact decoded_xml_header. Qed.
Print Assumptions C23_xml_sound.

(** The instruction is accepted iff it is one for the version. *)
Theorem C23_instruction : forall inst v, xml_header inst = Some v <-> xml_header_for v inst.
Proof. exact xml_header_iff. Qed.
Print Assumptions C23_instruction.

(** What follows from being an OFX instruction. *)
Theorem C23_content : forall inst v, xml_header_for v inst ->
  exists l, attributes_text l inst /\ In (bs "OFXHEADER", bs "200") l /\
    (exists value, In (bs "VERSION", value) l) /\
    (forall name value, In (name, value) l -> legal_attribute name value) /\
    (exists text, In (text, v) xml_versions).
Proof. exact xml_header_content. Qed.
Print Assumptions C23_content.

Example C23_case :
  let q := [chr 34] in
  xml_header_for OfxVersion202
    (bs " VERSION=" ++ q ++ bs "200" ++ q ++ bs "SECURITY=" ++ q ++ bs "NONE" ++ q ++ bs "  OFXHEADER=" ++ q ++ bs "200" ++ q ++
     bs " NEWFILEUID=" ++ q ++ bs "a=b" ++ q ++ bs " VERSION=" ++ q ++ bs " 202 " ++ q) /\
  xml_header (bs "OFXHEADER=" ++ q ++ bs "200" ++ q) = None /\
  xml_header (bs "OFXHEADER=" ++ q ++ bs "200" ++ q ++ bs " VERSION=" ++ q ++ bs "160" ++ q) = None /\
  xml_header (bs "OFXHEADER=" ++ q ++ bs "200" ++ q ++ bs " VERSION=" ++ q ++ bs "200" ++ q ++ bs " X=" ++ q ++ q) = None.
Proof.
  cbv zeta. split; [apply xml_header_iff; vm_compute; reflexivity|].
  split; [vm_compute; reflexivity|]. split; vm_compute; reflexivity.
Qed.

(** C55: how SGML is told from XML. *)
Theorem C55_dialect : forall s, guess_xml s = false <-> looks_like_sgml s.
Proof. exact guess_sgml_iff. Qed.
Print Assumptions C55_dialect.

(** Only the first 1024 bytes count. *)
Theorem C55_window : forall s s', firstn 1024 s = firstn 1024 s' -> guess_xml s = guess_xml s'.
Proof. exact guess_window. Qed.
Print Assumptions C55_window.

Example C55_case :
  looks_like_sgml (bs "  OFXHEADER:100 ... OFXHEADER=") /\ ~ looks_like_sgml (bs "OFXHEADER= OFXHEADER:100") /\
  ~ looks_like_sgml (bs "<OFX></OFX>").
Proof.
  split; [apply guess_sgml_iff; vm_compute; reflexivity|].
  split; intros H; apply guess_sgml_iff in H; vm_compute in H; discriminate.
Qed.
