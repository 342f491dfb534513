(** C91: the library does not panic on any input. *)
From Coq Require Import ZArith.
From Verif Require Import GoStr GoTime Types Enums EnumTables Records Codec Common Messages Document SpecDocument Headers Samples Panics PanicFacts.

(** Reading a date of any text returns, and what it returns is what the rest of the
    model says. *)
Theorem C91_dates : forall e value, date_unmarshal_go e value = Returns (date_unmarshal e value).
Proof. exact date_unmarshal_returns. Qed.
Print Assumptions C91_dates.

(** So does looking at any UID, and making one of 16 bytes. *)
Theorem C91_uids : forall u, uid_recommended_go u = Returns (uid_recommended u).
Proof. exact uid_recommended_returns. Qed.
Print Assumptions C91_uids.

Theorem C91_random_uids : forall r, (forall buf n, r = RandRead buf n -> length buf = 16) -> random_uid_go r = Returns (random_uid r).
Proof. exact random_uid_returns. Qed.
Print Assumptions C91_random_uids.

(** So does reading the header of any input. *)
Theorem C91_sgml_headers : forall s, read_sgml_headers_go s = Returns (read_sgml_headers s).
Proof. exact read_sgml_headers_returns. Qed.
Print Assumptions C91_sgml_headers.

Theorem C91_xml_headers : forall inst, xml_header_go inst = Returns (xml_header inst).
Proof. exact xml_header_returns. Qed.
Print Assumptions C91_xml_headers.

(** So do the methods of any Status. *)
Theorem C91_statuses : forall s, status_valid_go s = Returns (status_valid s) /\
  status_code_meaning_go s = Returns (status_code_meaning s) /\ status_code_conditions_go s = Returns (status_code_conditions s).
Proof. intros s. split; [apply status_valid_returns|]. split; [apply status_meaning_returns|apply status_conditions_returns]. Qed.
Print Assumptions C91_statuses.

(** So does checking any response, whatever pointers in it are nil. *)
Theorem C91_responses : forall r, response_valid_go r = Returns (response_valid r).
Proof. exact response_valid_returns. Qed.
Print Assumptions C91_responses.

(** There is something to index, slice and dereference; without the tests before it
    there would be a panic. *)
Example C91_case :
  at_index (bs "1234") 8 = Panics /\ deref (@None Payee) = Panics /\ between (bs "1234") 2 6 = Panics /\
  uid_recommended_go (bs "01234567-0123-0123-0123-0123456789ab") = Returns true /\
  date_zone_go (bs "-5.50:EST") = Returns (Some (bs " -0530 EST", [CSpace; CNumTZ; CSpace; CTZ])) /\
  read_sgml_headers_go (bs "OFXHEADER:100 DATA:OFXSGML VERSION:102 SECURITY:NONE ENCODING:USASCII CHARSET:1252 COMPRESSION:NONE OLDFILEUID:NONE NEWFILEUID:NONE <OFX>")
    = Returns (Some (OfxVersion102, bs "<OFX>")) /\
  xml_header_go (bs "OFXHEADER=""200"" VERSION=""203""") = Returns (Some OfxVersion203).
Proof. repeat split; vm_compute; reflexivity. Qed.
