(** What it means that a sequence of bytes spells an element tree in XML or in
    the SGML dialect of OFX, stated without the printer and the scanner. *)
From Verif Require Import GoStr Codec.
Local Open Scope N_scope.

(** ** Text *)

(** The characters XML allows. *)
Definition xml_code (r : N) : Prop :=
  r = 9 \/ r = 10 \/ r = 13 \/ 32 <= r <= 55295 \/ 57344 <= r <= 65533 \/ 65536 <= r <= 1114111.

(** The UTF-8 encoding of a character. *)
Definition utf8_char (r : N) : str :=
  if r <? 128 then [chr r]
  else if r <? 2048 then [chr (192 + r / 64); chr (128 + r mod 64)]
  else if r <? 65536 then [chr (224 + r / 4096); chr (128 + r / 64 mod 64); chr (128 + r mod 64)]
  else [chr (240 + r / 262144); chr (128 + r / 4096 mod 64); chr (128 + r / 64 mod 64);
        chr (128 + r mod 64)].

(** The text of a field that XML can carry: UTF-8 made of XML characters. *)
Definition xml_string (s : str) : Prop :=
  exists rs, Forall xml_code rs /\ s = concat (map utf8_char rs).

(** What text becomes that XML cannot carry: characters that XML does not allow
    and bytes that are not part of a character become U+FFFD. *)
Definition unicode_code (r : N) : Prop := r <= 55295 \/ 57344 <= r <= 1114111.
Definition replacement : str := utf8_char 65533.

Inductive repaired : str -> str -> Prop :=
| repaired_nil : repaired [] []
| repaired_char r s m : xml_code r -> repaired s m -> repaired (utf8_char r ++ s) (utf8_char r ++ m)
| repaired_control r s m :
    unicode_code r -> ~ xml_code r -> repaired s m -> repaired (utf8_char r ++ s) (replacement ++ m)
| repaired_byte c s m :
    (forall r s', unicode_code r -> c :: s <> utf8_char r ++ s') ->
    repaired s m -> repaired (c :: s) (replacement ++ m).

(** The white space of XML. *)
Definition xml_ws (w : str) : Prop :=
  Forall (fun c => code c = 32 \/ code c = 9 \/ code c = 10 \/ code c = 13) w.

(** The references the library writes for the characters it does not write as
    they are. *)
Definition references : list (str * ascii) :=
  [ (bs "&lt;", chr 60); (bs "&gt;", chr 62); (bs "&amp;", chr 38);
    (bs "&#34;", chr 34); (bs "&#39;", chr 39);
    (bs "&#x9;", chr 9); (bs "&#xA;", chr 10); (bs "&#xD;", chr 13) ].

(** [written raw s]: the bytes [raw] mean the text [s] and contain no markup: each
    byte of [s] stands for itself or is written as a reference, and '<', '>', '&',
    the quotes, tabs and line ends never stand for themselves. *)
Inductive written : str -> str -> Prop :=
| written_nil : written [] []
| written_byte c raw s :
    ~ In c (map snd references) -> written raw s -> written (c :: raw) (c :: s)
| written_reference r c raw s :
    In (r, c) references -> written raw s -> written (r ++ raw) (c :: s).

(** ** Elements *)

Definition letter (c : ascii) : Prop := 65 <= code c <= 90 \/ 97 <= code c <= 122.
Definition digit (c : ascii) : Prop := 48 <= code c <= 57.

(** A name without name space prefix: a letter or underscore, then letters,
    digits, underscores, dots and dashes. *)
Definition plain_name (nm : str) : Prop :=
  exists c r, nm = c :: r /\ (letter c \/ code c = 95) /\
    Forall (fun d => letter d \/ digit d \/ code d = 95 \/ code d = 46 \/ code d = 45) r.

Definition start_tag (nm : str) : str := bs "<" ++ nm ++ bs ">".
Definition end_tag (nm : str) : str := bs "</" ++ nm ++ bs ">".

(** [spells omit nest n b]: the bytes [b] are the element [n]. There may be white
    space between elements. The end tag of an element that holds only text may
    be left out if [omit] allows it. Only elements whose name satisfies [nest]
    contain elements. *)
Inductive spells (omit nest : str -> Prop) : node -> str -> Prop :=
| spells_text nm s raw :
    plain_name nm -> xml_string s -> written raw s ->
    spells omit nest (Elem nm (text_kids s)) (start_tag nm ++ raw ++ end_tag nm)
| spells_open nm s raw :
    plain_name nm -> xml_string s -> written raw s -> omit nm ->
    spells omit nest (Elem nm (text_kids s)) (start_tag nm ++ raw)
| spells_elems nm kids w b :
    plain_name nm -> nest nm -> xml_ws w -> spells_all omit nest kids b ->
    spells omit nest (Elem nm kids) (start_tag nm ++ w ++ b ++ end_tag nm)
with spells_all (omit nest : str -> Prop) : list node -> str -> Prop :=
| spells_none : spells_all omit nest [] []
| spells_more n b w kids bs :
    spells omit nest n b -> xml_ws w -> spells_all omit nest kids bs ->
    spells_all omit nest (n :: kids) (b ++ w ++ bs).

(** The trees of documents: every element has a plain name and holds either
    text, of which [leaf] holds, or elements; elements are nested only in
    elements whose name satisfies [nest]. *)
Inductive document (leaf : str -> str -> Prop) (nest : str -> Prop) : node -> Prop :=
| document_text nm s : plain_name nm -> leaf nm s -> document leaf nest (Elem nm (text_kids s))
| document_elems nm kids :
    plain_name nm -> nest nm -> Forall (document leaf nest) kids -> document leaf nest (Elem nm kids).

(** [repaired_tree n n']: [n'] is [n] with its text repaired. *)
Inductive repaired_tree : node -> node -> Prop :=
| repaired_leaf nm s m : repaired s m -> repaired_tree (Elem nm (text_kids s)) (Elem nm (text_kids m))
| repaired_elems nm kids kids' :
    Forall2 repaired_tree kids kids' -> repaired_tree (Elem nm kids) (Elem nm kids').

(** [same_tree n n']: [n'] is [n] except for white space between elements and
    at the end of the text of an element. *)
Inductive same_tree : node -> node -> Prop :=
| same_text nm s w : xml_ws w -> same_tree (Elem nm (text_kids s)) (Elem nm (text_kids (s ++ w)))
| same_elems nm kids kids' : same_trees kids kids' -> same_tree (Elem nm kids) (Elem nm kids')
with same_trees : list node -> list node -> Prop :=
| same_none : same_trees [] []
| same_space w kids kids' : xml_ws w -> same_trees kids kids' -> same_trees kids (Text w :: kids')
| same_more n n' kids kids' :
    same_tree n n' -> same_trees kids kids' -> same_trees (n :: kids) (n' :: kids').
