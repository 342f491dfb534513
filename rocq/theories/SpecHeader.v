(** What an OFX header is, stated without the regular expression and the loops
    that read it. *)
From Verif Require Import GoStr SpecStr EnumTables Xml.

(** The versions and how they are written. *)
Definition sgml_versions : list (str * N) :=
  [ (bs "102", OfxVersion102); (bs "103", OfxVersion103); (bs "151", OfxVersion151); (bs "160", OfxVersion160) ].
Definition xml_versions : list (str * N) :=
  [ (bs "200", OfxVersion200); (bs "201", OfxVersion201); (bs "202", OfxVersion202); (bs "203", OfxVersion203);
    (bs "210", OfxVersion210); (bs "211", OfxVersion211); (bs "220", OfxVersion220) ].

Definition known_version (v : N) : Prop := exists text, In (text, v) (sgml_versions ++ xml_versions).

(** What a document looks like to a reader that has to tell SGML from XML: its
    first 1024 bytes contain "OFXHEADER:" and no "OFXHEADER=" before that. *)
Definition looks_like_sgml (s : str) : Prop :=
  exists a r, firstn 1024 s = a ++ bs "OFXHEADER:" ++ r /\
    forall a' r', firstn 1024 s = a' ++ bs "OFXHEADER=" ++ r' -> length a < length a'.

(** ** SGML *)

Definition header_space (c : ascii) : Prop := In (code c) [9; 10; 12; 13; 32]%N.
Definition digit_char (c : ascii) : Prop := (48 <= code c <= 57)%N.
Definition upper_char (c : ascii) : Prop := (65 <= code c <= 90)%N.
Definition word_char (c : ascii) : Prop :=
  digit_char c \/ upper_char c \/ (97 <= code c <= 122)%N \/ code c = 95%N.
Definition dash (c : ascii) : Prop := code c = 45%N.

(** The nine keys in their order, and the characters of their values. *)
Definition sgml_keys : list (str * (ascii -> Prop)) :=
  [ (bs "OFXHEADER", digit_char);
    (bs "DATA", upper_char);
    (bs "VERSION", digit_char);
    (bs "SECURITY", word_char);
    (bs "ENCODING", fun c => upper_char c \/ digit_char c \/ dash c);
    (bs "CHARSET", fun c => word_char c \/ dash c);
    (bs "COMPRESSION", upper_char);
    (bs "OLDFILEUID", fun c => word_char c \/ dash c);
    (bs "NEWFILEUID", fun c => word_char c \/ dash c) ].

(** [header_text keys values s]: [s] is the entries KEY:VALUE in this order, with
    any white space after the colons and after the values. *)
Inductive header_text : list (str * (ascii -> Prop)) -> list str -> str -> Prop :=
| header_end : header_text [] [] []
| header_entry key class keys w value w' values rest :
    Forall header_space w -> value <> [] -> Forall class value -> Forall header_space w' ->
    header_text keys values rest ->
    header_text ((key, class) :: keys) (value :: values) (key ++ bs ":" ++ w ++ value ++ w' ++ rest).

(** [s] is an SGML header for version [v]. *)
Definition sgml_header_for (v : N) (s : str) : Prop :=
  exists version security encoding charset old new,
    header_text sgml_keys
      [bs "100"; bs "OFXSGML"; version; security; encoding; charset; bs "NONE"; old; new] s /\
    In (version, v) sgml_versions /\
    (security = bs "NONE" \/ security = bs "TYPE1").

(** ** XML *)

(** The five attributes of the OFX processing instruction and their values. The
    version may have white space around it. *)
Definition version_value (value : str) (v : N) : Prop :=
  exists t, trims_to value t /\ In (t, v) xml_versions.

Definition legal_attribute (name value : str) : Prop :=
  (name = bs "OFXHEADER" /\ value = bs "200") \/
  (name = bs "VERSION" /\ exists v, version_value value v) \/
  (name = bs "SECURITY" /\ value = bs "NONE") \/
  name = bs "OLDFILEUID" \/ name = bs "NEWFILEUID".

(** [attributes_text l s]: [s] is the attributes NAME=VALUE of [l], the values in
    double quotes, with any white space before, between and after them. *)
Inductive attributes_text : list (str * str) -> str -> Prop :=
| attributes_end w : ws_run w -> attributes_text [] w
| attributes_more w name value l rest :
    ws_run w -> legal_attribute name value -> ~ In (chr 34) value -> attributes_text l rest ->
    attributes_text ((name, value) :: l) (w ++ name ++ bs "=" ++ [chr 34] ++ value ++ [chr 34] ++ rest).

(** [s] is the text of an OFX processing instruction for version [v]: it has an
    OFXHEADER, and its last VERSION is [v]. *)
Definition xml_header_for (v : N) (s : str) : Prop :=
  exists before value after,
    attributes_text (before ++ (bs "VERSION", value) :: after) s /\
    version_value value v /\
    (forall x, ~ In (bs "VERSION", x) after) /\
    In (bs "OFXHEADER", bs "200") (before ++ (bs "VERSION", value) :: after).

(** The tokens before the OFX element: the XML declaration, then the OFX
    processing instruction, with only blank text around them. *)
Definition blank_token (t : token) : Prop := exists w, t = TChar w /\ ws_run w.
