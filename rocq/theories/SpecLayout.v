(** How a document is laid out: its lines, their ends and their indentation,
    stated without the printer. *)
From Verif Require Import GoStr EnumTables Codec SpecXml SpecHeader.

Definition line_feed : ascii := chr 10.
Definition carriage_return : ascii := chr 13.
Definition blank : ascii := chr 32.

(** The end of a line with and without CarriageReturn. *)
Definition end_of_line (carriage : bool) : str :=
  if carriage then [carriage_return; line_feed] else [line_feed].

(** What stands before a tag at a given depth: a new line and four blanks for
    each level, or nothing at all if the document is not indented. *)
Definition gap (indent carriage : bool) (depth : nat) : str :=
  if indent then end_of_line carriage ++ repeat blank (4 * depth) else [].

(** [laid_out closed before depth n b]: the bytes [b] are the element [n] at the
    given depth. An element that holds text, which is written with references and
    without what XML cannot carry, is on one line, with an end tag if its name
    is [closed]. In front of each element inside an element, and in front of the
    end tag after them, there is what [before] says, and nothing else. *)
Inductive laid_out (closed : str -> Prop) (before : nat -> str) : nat -> node -> str -> Prop :=
| laid_text d nm s m raw :
    closed nm -> repaired s m -> written raw m ->
    laid_out closed before d (Elem nm (text_kids s)) (start_tag nm ++ raw ++ end_tag nm)
| laid_open d nm s m raw :
    ~ closed nm -> repaired s m -> written raw m ->
    laid_out closed before d (Elem nm (text_kids s)) (start_tag nm ++ raw)
| laid_elems d nm kids b :
    closed nm -> kids <> [] -> laid_kids closed before (S d) kids b ->
    laid_out closed before d (Elem nm kids) (start_tag nm ++ b ++ before d ++ end_tag nm)
with laid_kids (closed : str -> Prop) (before : nat -> str) : nat -> list node -> str -> Prop :=
| laid_none d : laid_kids closed before d [] []
| laid_more d n kids b b' :
    laid_out closed before d n b -> laid_kids closed before d kids b' ->
    laid_kids closed before d (n :: kids) (before d ++ b ++ b').

(** The lines before the OFX element, for each version. Marshal writes no header
    at all for a number that is not a version. *)
Definition double_quoted (s : str) : str := [chr 34] ++ s ++ [chr 34].

Inductive header_of : N -> list str -> Prop :=
| header_of_sgml version v : In (version, v) sgml_versions ->
    header_of v
      [ bs "OFXHEADER:100"; bs "DATA:OFXSGML"; bs "VERSION:" ++ version; bs "SECURITY:NONE"; bs "ENCODING:USASCII";
        bs "CHARSET:1252"; bs "COMPRESSION:NONE"; bs "OLDFILEUID:NONE"; bs "NEWFILEUID:NONE"; [] ]
| header_of_xml version v : In (version, v) xml_versions ->
    header_of v
      [ bs "<?xml version=" ++ double_quoted (bs "1.0") ++ bs " encoding=" ++ double_quoted (bs "UTF-8") ++
        bs " standalone=" ++ double_quoted (bs "no") ++ bs "?>";
        bs "<?OFX OFXHEADER=" ++ double_quoted (bs "200") ++ bs " VERSION=" ++ double_quoted version ++
        bs " SECURITY=" ++ double_quoted (bs "NONE") ++ bs " OLDFILEUID=" ++ double_quoted (bs "NONE") ++
        bs " NEWFILEUID=" ++ double_quoted (bs "NONE") ++ bs "?>" ]
| header_of_none v : ~ known_version v -> header_of v [].

(** Lines without line ends in them. *)
Definition one_line (s : str) : Prop := ~ In line_feed s /\ ~ In carriage_return s.

(** Every line feed has a carriage return before it, and the other way round. *)
Definition crlf_only (s : str) : Prop :=
  forall a b, (s = a ++ line_feed :: b -> exists a', a = a' ++ [carriage_return]) /\
              (s = a ++ carriage_return :: b -> exists b', b = line_feed :: b').
