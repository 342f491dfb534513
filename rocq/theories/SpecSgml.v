(** The SGML dialect a document of an old version may be written in, as a grammar
    over bytes. It is XML with less care: an ampersand need not be written as a
    reference, attribute values need no quotes, and end tags may be left out.
    Stated without the scanner. *)
From Verif Require Import GoStr SpecStr Codec SpecXml SpecHeader SpecMarkup Leaves.
Local Open Scope N_scope.

(** ** Text *)

(** [loose raw t]: the bytes [raw] stand for [t]: as in XML, but an ampersand that
    begins no reference stands for itself. *)
Inductive loose : str -> str -> Prop :=
| loose_nil : loose [] []
| loose_crlf raw t : loose raw t -> loose (return_ :: lf :: raw) (lf :: t)
| loose_cr raw t : (forall r, raw <> lf :: r) -> loose raw t -> loose (return_ :: raw) (lf :: t)
| loose_byte c raw t : c <> return_ -> c <> "<"%char -> c <> "&"%char -> loose raw t -> loose (c :: raw) (c :: t)
| loose_reference r u raw t : reference r u -> loose raw t -> loose (r ++ raw) (u ++ t)
| loose_ampersand raw t :
    (forall r u x, "&"%char :: raw = r ++ x -> ~ reference r u) ->
    loose raw t -> loose ("&"%char :: raw) ("&"%char :: t).

Definition loose_text (t raw : str) : Prop :=
  loose raw t /\ ~ occurs (bs "]]>") raw /\ xml_string t.

(** ** Tags *)

(** The characters of an attribute value without quotes. *)
Definition value_char (c : ascii) : Prop :=
  letter c \/ digit c \/ code c = 95 \/ code c = 58 \/ code c = 45.

(** Attributes: with a value in quotes, with a value without quotes, without a
    value. After the latter two there is white space or the end of the tag. *)
Inductive loose_attributes : str -> Prop :=
| loose_none w : xml_ws w -> loose_attributes w
| loose_quoted w nm w1 w2 q t raw rest :
    xml_ws w -> xml_name nm -> xml_ws w1 -> xml_ws w2 -> q = "'"%char \/ q = chr 34 ->
    loose_text t raw -> ~ In q raw -> loose_attributes rest ->
    loose_attributes (w ++ nm ++ w1 ++ bs "=" ++ w2 ++ [q] ++ raw ++ [q] ++ rest)
| loose_unquoted w nm w1 w2 v rest :
    xml_ws w -> xml_name nm -> xml_ws w1 -> xml_ws w2 -> Forall value_char v ->
    (forall c r, rest = c :: r -> v <> [] /\ xml_ws [c]) -> loose_attributes rest ->
    loose_attributes (w ++ nm ++ w1 ++ bs "=" ++ w2 ++ v ++ rest)
| loose_bare w nm rest :
    xml_ws w -> xml_name nm -> (forall c r, rest = c :: r -> xml_ws [c]) -> loose_attributes rest ->
    loose_attributes (w ++ nm ++ rest).

Definition loose_rest (a : str) : Prop :=
  loose_attributes a /\ forall c r, a = c :: r -> xml_ws [c].

(** ** Elements *)

(** The names of simple elements, in upper or lower case. *)
Definition letter_of (c l : ascii) : Prop := c = l \/ (65 <= code l <= 90 /\ code c = code l + 32).
Definition simple_name (nm : str) : Prop := exists l, In l ofx_leaf_elements /\ Forall2 letter_of nm l.

Definition is_text (n : node) : Prop := match n with Text _ => True | _ => False end.

(** How an element ends: with its end tag, without one, or with the end tag of
    another element. The other element may be one it is in, which then ends too
    with this tag. *)
Inductive ending :=
| Ended
| Omitted
| Pending (prefix local : str).

(** What an end tag does to an element: it ends it. If it does not have the name
    of the element, it then ends the element around it. There is no case for the
    same name with another prefix. *)
Definition ended_by (prefix local prefix' local' : str) (e : ending) : Prop :=
  (local' = local /\ prefix' = prefix /\ e = Ended) \/ (local' <> local /\ e = Pending prefix' local').

(** [sgml n e b]: the bytes [b] are the element [n] up to where it ends.
    [sgmls kids o b]: the bytes [b] are the content [kids] of an element; if [o]
    is not [None], the last element of the content ended with the end tag of
    another element, and so the content is complete.
    A simple element holds only text. It needs no end tag where a start tag, a
    comment, an instruction or a directive follows. *)
Inductive sgml : node -> ending -> str -> Prop :=
| sgml_empty nm prefix local a :
    xml_name nm -> qualified nm prefix local -> loose_rest a ->
    sgml (Elem local []) Ended (bs "<" ++ nm ++ a ++ bs "/>")
| sgml_omitted nm prefix local a kids b :
    xml_name nm -> qualified nm prefix local -> loose_rest a ->
    simple_name local -> Forall is_text kids -> sgmls kids None b ->
    sgml (Elem local kids) Omitted (bs "<" ++ nm ++ a ++ bs ">" ++ b)
| sgml_tag nm prefix local a kids b nm' prefix' local' w e :
    xml_name nm -> qualified nm prefix local -> loose_rest a ->
    (simple_name local -> Forall is_text kids) -> sgmls kids None b ->
    xml_name nm' -> qualified nm' prefix' local' -> xml_ws w -> ended_by prefix local prefix' local' e ->
    sgml (Elem local kids) e (bs "<" ++ nm ++ a ++ bs ">" ++ b ++ bs "</" ++ nm' ++ w ++ bs ">")
| sgml_inner nm prefix local a kids b prefix' local' e :
    xml_name nm -> qualified nm prefix local -> loose_rest a ->
    ~ simple_name local -> sgmls kids (Some (prefix', local')) b -> ended_by prefix local prefix' local' e ->
    sgml (Elem local kids) e (bs "<" ++ nm ++ a ++ bs ">" ++ b)
with sgmls : list node -> option (str * str) -> str -> Prop :=
| sgmls_nil : sgmls [] None []
| sgmls_elem n b kids o rest : sgml n Ended b -> sgmls kids o rest -> sgmls (n :: kids) o (b ++ rest)
| sgmls_omitted n b kid kids o rest :
    sgml n Omitted b -> ~ is_text kid -> sgmls (kid :: kids) o rest ->
    sgmls (n :: kid :: kids) o (b ++ rest)
| sgmls_pending n b prefix local :
    sgml n (Pending prefix local) b -> sgmls [n] (Some (prefix, local)) b
| sgmls_text t raw kids o rest :
    raw <> [] -> loose_text t raw -> (forall c r, rest = c :: r -> c = "<"%char) ->
    sgmls kids o rest -> sgmls (Text t :: kids) o (raw ++ rest)
| sgmls_cdata t raw kids o rest :
    cdata_spells t raw -> sgmls kids o rest ->
    sgmls (Text t :: kids) o (bs "<![CDATA[" ++ raw ++ bs "]]>" ++ rest)
| sgmls_comment c kids o rest :
    ~ occurs (bs "--") (c ++ bs "-") -> sgmls kids o rest ->
    sgmls (Misc :: kids) o (bs "<!--" ++ c ++ bs "-->" ++ rest)
| sgmls_instruction target i kids o rest :
    instruction target i -> sgmls kids o rest ->
    sgmls (Misc :: kids) o (bs "<?" ++ target ++ i ++ bs "?>" ++ rest)
| sgmls_directive c d kids o rest :
    c <> "-"%char -> c <> "["%char -> directive 0 d -> sgmls kids o rest ->
    sgmls (Misc :: kids) o (bs "<!" ++ [c] ++ d ++ bs ">" ++ rest).

(** Simple elements hold only text, everywhere in a tree. *)
Inductive simple_hold_text : node -> Prop :=
| hold_text t : simple_hold_text (Text t)
| hold_misc : simple_hold_text Misc
| hold_elem nm kids : (simple_name nm -> Forall is_text kids) -> Forall simple_hold_text kids -> simple_hold_text (Elem nm kids).

(** ** Documents *)

(** An SGML document of version [v] whose OFX element is [n]: the header, and the
    element directly after it (blank CDATA sections, and blank text after one, may
    be between them). [e] says whether the element ends with its end tag or with
    one that names no open element. Whatever follows does not matter. *)
Definition sgml_document (v : N) (n : node) (e : ending) (s : str) : Prop :=
  exists h g b rest kids,
    s = h ++ g ++ b ++ rest /\
    sgml_header_for v h /\ (length h < 1024)%nat /\ blanks g /\ (forall c r, g = c :: r -> c = "<"%char) /\
    n = Elem (bs "OFX") kids /\ sgml n e b.
