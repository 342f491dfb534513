(** The XML a document may be written in, as a grammar over bytes: text with
    references, CDATA sections, comments, tags with attributes. Stated without
    the scanner. *)
From Verif Require Import GoStr SpecStr Codec SpecXml SpecHeader.
Local Open Scope N_scope.

(** [p] occurs somewhere in [s]. *)
Definition occurs (p s : str) : Prop := exists a b, s = a ++ p ++ b.

(** ** Text *)

(** The value of a number in a base up to 16, written with digits and letters. *)
Definition digit_value (c : ascii) : N :=
  if code c <=? 57 then code c - 48 else if code c <=? 70 then code c - 55 else code c - 87.
Definition hex_digit (c : ascii) : Prop := digit c \/ 97 <= code c <= 102 \/ 65 <= code c <= 70.
Fixpoint value_from (base n : N) (ds : str) : N :=
  match ds with [] => n | d :: ds' => value_from base (n * base + digit_value d) ds' end.
Definition value_in (base : N) (ds : str) : N := value_from base 0 ds.

(** The character a number stands for. Numbers of surrogates stand for U+FFFD. *)
Definition numbered (n : N) : str :=
  if (55296 <=? n) && (n <=? 57343) then replacement else utf8_char n.

(** [reference r t]: the reference [r] stands for the text [t]. *)
Inductive reference : str -> str -> Prop :=
| reference_lt : reference (bs "&lt;") (bs "<")
| reference_gt : reference (bs "&gt;") (bs ">")
| reference_amp : reference (bs "&amp;") (bs "&")
| reference_apos : reference (bs "&apos;") (bs "'")
| reference_quot : reference (bs "&quot;") [chr 34]
| reference_decimal ds : ds <> [] -> Forall digit ds -> value_in 10 ds <= 1114111 ->
    reference (bs "&#" ++ ds ++ bs ";") (numbered (value_in 10 ds))
| reference_hexadecimal ds : ds <> [] -> Forall hex_digit ds -> value_in 16 ds <= 1114111 ->
    reference (bs "&#x" ++ ds ++ bs ";") (numbered (value_in 16 ds)).

Definition lf : ascii := chr 10.
Definition return_ : ascii := chr 13.

(** [literal ok raw t]: the bytes [raw] stand for [t], every byte for itself,
    except that CR and CR LF are line feeds; all other bytes satisfy [ok]. If
    [refs] there may be references too. *)
Inductive literal (refs : bool) (ok : ascii -> Prop) : str -> str -> Prop :=
| literal_nil : literal refs ok [] []
| literal_crlf raw t : literal refs ok raw t -> literal refs ok (return_ :: lf :: raw) (lf :: t)
| literal_cr raw t : (forall r, raw <> lf :: r) -> literal refs ok raw t ->
    literal refs ok (return_ :: raw) (lf :: t)
| literal_byte c raw t : c <> return_ -> ok c -> literal refs ok raw t -> literal refs ok (c :: raw) (c :: t)
| literal_reference r u raw t : refs = true -> reference r u -> literal refs ok raw t ->
    literal refs ok (r ++ raw) (u ++ t).

(** Text between tags: no '<', no '&' that is not the start of a reference, no
    "]]>", and XML characters only. *)
Definition text_spells (t raw : str) : Prop :=
  literal true (fun c => c <> "<"%char /\ c <> "&"%char) raw t /\ ~ occurs (bs "]]>") raw /\ xml_string t.

(** The content of a CDATA section. *)
Definition cdata_spells (t raw : str) : Prop :=
  literal false (fun _ => True) raw t /\ ~ occurs (bs "]]>") (raw ++ bs "]]") /\ xml_string t.

(** ** Tags *)

Definition name_start (c : ascii) : Prop := letter c \/ code c = 95 \/ code c = 58.
Definition name_char (c : ascii) : Prop := name_start c \/ digit c \/ code c = 46 \/ code c = 45.

(** A name, with or without a prefix. *)
Definition xml_name (nm : str) : Prop :=
  exists c r, nm = c :: r /\ name_start c /\ Forall name_char r.

(** A name is a prefix, a colon and the local name, or just a local name. *)
Definition qualified (nm prefix local : str) : Prop :=
  (prefix = [] /\ nm = local /\ ~ In ":"%char nm) \/
  (nm = prefix ++ bs ":" ++ local /\ ~ In ":"%char prefix).

(** The attributes of a tag. *)
Inductive tag_attributes : str -> Prop :=
| attributes_none w : xml_ws w -> tag_attributes w
| attributes_one w nm w1 w2 q t raw rest :
    xml_ws w -> xml_name nm -> xml_ws w1 -> xml_ws w2 -> q = "'"%char \/ q = chr 34 ->
    text_spells t raw -> ~ In q raw -> tag_attributes rest ->
    tag_attributes (w ++ nm ++ w1 ++ bs "=" ++ w2 ++ [q] ++ raw ++ [q] ++ rest).

(** What may follow the name in a tag: if anything, it begins with white space. *)
Definition tag_rest (a : str) : Prop :=
  tag_attributes a /\ forall c r, a = c :: r -> xml_ws [c].

(** What is between "<?" and "?>": a target and, if anything, a byte that can not
    belong to the target and any more bytes. An XML declaration may not name a
    version other than 1.0. *)
Definition quote_char (q : ascii) : Prop := q = "'"%char \/ q = chr 34.

Definition declares_1_0 (i : str) : Prop :=
  forall a q x r, i = a ++ bs "version=" ++ [q] ++ x ++ [q] ++ r -> ~ occurs (bs "version=") (a ++ bs "version") ->
    quote_char q -> ~ In q x -> x = [] \/ x = bs "1.0".

Definition instruction (target i : str) : Prop :=
  xml_name target /\ (forall c r, i = c :: r -> ~ name_char c /\ code c < 128) /\
  ~ occurs (bs "?>") i /\ (target = bs "xml" -> declares_1_0 i).

(** What follows the first byte of a directive, up to its '>': quoted text,
    comments and, in matching pairs, more '<' and '>'. The number is how many '<'
    are open. *)
Inductive directive : nat -> str -> Prop :=
| directive_end : directive 0 []
| directive_close d s : directive d s -> directive (S d) (">"%char :: s)
| directive_quoted d q x s : quote_char q -> ~ In q x -> directive d s -> directive d (q :: x ++ q :: s)
| directive_comment d c s : ~ occurs (bs "-->") (c ++ bs "--") -> directive d s ->
    directive d (bs "<!--" ++ c ++ bs "-->" ++ s)
| directive_open d s : (forall r, s <> bs "!--" ++ r) -> directive (S d) s -> directive d ("<"%char :: s)
| directive_byte d c s : c <> ">"%char -> c <> "<"%char -> ~ quote_char c -> directive d s -> directive d (c :: s).

(** [markup n b]: the bytes [b] are the element [n], whose name is the local
    part of the name in its tags. The start tag and the end tag agree on prefix
    and local name. Comments, processing instructions and directives are [Misc]. *)
Inductive markup : node -> str -> Prop :=
| markup_empty nm prefix local a :
    xml_name nm -> qualified nm prefix local -> tag_rest a ->
    markup (Elem local []) (bs "<" ++ nm ++ a ++ bs "/>")
| markup_elem nm nm' prefix local a w kids b :
    xml_name nm -> qualified nm prefix local -> tag_rest a ->
    markups kids b ->
    xml_name nm' -> qualified nm' prefix local -> xml_ws w ->
    markup (Elem local kids) (bs "<" ++ nm ++ a ++ bs ">" ++ b ++ bs "</" ++ nm' ++ w ++ bs ">")
with markups : list node -> str -> Prop :=
| markups_nil : markups [] []
| markups_elem n b kids rest : markup n b -> markups kids rest -> markups (n :: kids) (b ++ rest)
| markups_text t raw kids rest :
    raw <> [] -> text_spells t raw -> (forall c r, rest = c :: r -> c = "<"%char) ->
    markups kids rest -> markups (Text t :: kids) (raw ++ rest)
| markups_cdata t raw kids rest :
    cdata_spells t raw -> markups kids rest ->
    markups (Text t :: kids) (bs "<![CDATA[" ++ raw ++ bs "]]>" ++ rest)
| markups_comment c kids rest :
    ~ occurs (bs "--") (c ++ bs "-") -> markups kids rest ->
    markups (Misc :: kids) (bs "<!--" ++ c ++ bs "-->" ++ rest)
| markups_instruction target i kids rest :
    instruction target i -> markups kids rest ->
    markups (Misc :: kids) (bs "<?" ++ target ++ i ++ bs "?>" ++ rest)
| markups_directive c d kids rest :
    c <> "-"%char -> c <> "["%char -> directive 0 d -> markups kids rest ->
    markups (Misc :: kids) (bs "<!" ++ [c] ++ d ++ bs ">" ++ rest).

(** ** The beginning of a document *)

(** Blank text outside of elements. *)
Inductive blanks : str -> Prop :=
| blanks_nil : blanks []
| blanks_text t raw rest :
    raw <> [] -> text_spells t raw -> ws_run t -> (forall c r, rest = c :: r -> c = "<"%char) -> blanks rest ->
    blanks (raw ++ rest)
| blanks_cdata t raw rest :
    cdata_spells t raw -> ws_run t -> blanks rest -> blanks (bs "<![CDATA[" ++ raw ++ bs "]]>" ++ rest).

(** An XML document of version [v] whose OFX element is [n]: an XML declaration,
    the OFX processing instruction and the element. Whatever follows the element
    does not matter. *)
Definition xml_document (v : N) (n : node) (s : str) : Prop :=
  exists g1 decl g2 inst g3 b rest kids,
    s = g1 ++ bs "<?xml" ++ decl ++ bs "?>" ++ g2 ++ bs "<?OFX" ++ inst ++ bs "?>" ++ g3 ++ b ++ rest /\
    blanks g1 /\ blanks g2 /\ blanks g3 /\
    instruction (bs "xml") decl /\ instruction (bs "OFX") inst /\ xml_header_for v inst /\
    n = Elem (bs "OFX") kids /\ markup n b.
