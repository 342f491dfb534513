(** Model of the byte level of encoding/xml (the fork github.com/aclindsa/xml):
    the printer behind Encoder, and the scanner behind Decoder.Token. Neither
    package is part of /repo; the model follows encoding/xml of Go 1.15
    (marshal.go, xml.go), from which the fork starts, and the two additions of
    the fork that /repo uses: Encoder.SetDisableAutoClose (request.go:95) with
    CarriageReturn (request.go:91), and Decoder.AutoCloseAfterCharData
    (response.go:304). *)
From Verif Require Import GoStr Utf8 Codec.

Definition nl : ascii := chr 10.
Definition cr : ascii := chr 13.
Definition tab : ascii := chr 9.

(** ** Characters *)

(** isInCharacterRange. *)
Definition xml_rune (n : N) : bool :=
  ((n =? 9) || (n =? 10) || (n =? 13) || ((32 <=? n) && (n <=? 55295)) ||
   ((57344 <=? n) && (n <=? 65533)) || ((65536 <=? n) && (n <=? 1114111)))%N.

Definition xml_char (r : option N) : bool :=
  match r with Some n => xml_rune n | None => false end.

(** The loop at the end of Decoder.text: the text is UTF-8 and all its characters
    are XML characters. *)
Definition xml_text (s : str) : bool := forallb (fun p => xml_char (fst p)) (runes s).

(** ** Printing *)

(** escapeText with escapeNewline. *)
Definition escape_rune (r : option N) (bytes : str) : str :=
  match r with
  | None => encode_rune 65533
  | Some n =>
      if (n =? 34)%N then bs "&#34;"
      else if (n =? 39)%N then bs "&#39;"
      else if (n =? 38)%N then bs "&amp;"
      else if (n =? 60)%N then bs "&lt;"
      else if (n =? 62)%N then bs "&gt;"
      else if (n =? 9)%N then bs "&#x9;"
      else if (n =? 10)%N then bs "&#xA;"
      else if (n =? 13)%N then bs "&#xD;"
      else if xml_rune n then bytes
      else encode_rune 65533
  end.

Definition escape (s : str) : str := concat (map (fun p => escape_rune (fst p) (snd p)) (runes s)).

(** The settings of an Encoder: Indent("", "    "), CarriageReturn and the
    elements that get no end tag. *)
Record style := mkStyle {
  st_indent : bool;
  st_cr : bool;
  st_unclosed : list str
}.

Definition newline (st : style) : str := if st_cr st then [cr; nl] else [nl].

Definition spaces (depth : nat) : str := concat (repeat (bs "    ") depth).

(** printer.writeIndent before a tag. [first] says that nothing has been
    written yet. *)
Definition line_start (st : style) (first : bool) (depth : nat) : str :=
  if st_indent st then (if first then [] else newline st) ++ spaces depth else [].

Definition is_elem (n : node) : bool := match n with Elem _ _ => true | _ => false end.

Definition member (nm : str) (l : list str) : bool := existsb (str_eqb nm) l.

(** printer.writeStart, the content, printer.writeEnd. The end tag is on a line
    of its own unless no tag has been written since the start tag (indentedIn).
    Comments and the like are never written by /repo. *)
Fixpoint print (st : style) (first : bool) (depth : nat) (n : node) : str :=
  match n with
  | Elem nm kids =>
      line_start st first depth ++ bs "<" ++ nm ++ bs ">" ++
      concat (map (print st false (S depth)) kids) ++
      (if member nm (st_unclosed st) then []
       else (if existsb is_elem kids then line_start st false depth else []) ++
            bs "</" ++ nm ++ bs ">")
  | Text s => escape s
  | Misc => []
  end.

(** ** Scanning *)

(** xml.Token. An element's name is the part before the first colon and the part
    after it; the translation of name space prefixes into URLs is left out, since
    /repo only looks at Local. Attributes are left out. [TMisc] is a comment or a
    directive. *)
Inductive token :=
| TStart (space local : str)
| TEnd (space local : str)
| TChar (s : str)
| TProc (target inst : str)
| TMisc.

(** Decoder.space skips these. *)
Definition xml_space (c : ascii) : bool :=
  ((code c =? 32) || (code c =? 13) || (code c =? 10) || (code c =? 9))%N.

Fixpoint skip_space (s : str) : str :=
  match s with
  | c :: s' => if xml_space c then skip_space s' else s
  | [] => []
  end.

(** The longest prefix of characters that satisfy [p], and the rest. *)
Fixpoint span (p : ascii -> bool) (s : str) : str * str :=
  match s with
  | c :: s' => if p c then let (a, b) := span p s' in (c :: a, b) else ([], s)
  | [] => ([], [])
  end.

(** The rest of the input after a given beginning. *)
Definition after (p s : str) : option str :=
  if has_prefix p s then Some (skipn (length p) s) else None.

Definition name_first (c : ascii) : bool :=
  is_upper c || is_lower c || (code c =? 95)%N || (code c =? 58)%N.

(** isNameByte. *)
Definition name_byte (c : ascii) : bool :=
  name_first c || is_digit c || (code c =? 46)%N || (code c =? 45)%N.

(** What Decoder.readName collects. *)
Definition name_or_high (c : ascii) : bool := name_byte c || (128 <=? code c)%N.

(** isName, restricted to ASCII: names with other letters are refused here,
    while Go accepts some of them. No name in OFX has one. *)
Definition is_name (nm : str) : bool :=
  match nm with
  | [] => false
  | c :: _ => name_first c && forallb name_byte nm
  end.

(** Decoder.name. The input may not end directly after a name. *)
Definition read_name (s : str) : option (str * str) :=
  let (nm, rest) := span name_or_high s in
  if is_name nm && negb (null rest) then Some (nm, rest) else None.

(** Decoder.nsname: strings.Index(s, ":"). *)
Definition split_name (nm : str) : str * str :=
  match split2 (bs ":") nm with
  | Some (a, b) => (a, b)
  | None => ([], nm)
  end.

Definition is_hex (c : ascii) : bool :=
  is_digit c || between 97 102 c || between 65 70 c.

Definition hex_val (c : ascii) : N :=
  (if is_digit c then code c - 48
   else if between 97 102 c then code c - 87
   else code c - 55)%N.

Definition number (base : N) (ds : str) : N :=
  fold_left (fun n d => (n * base + hex_val d)%N) ds 0%N.

(** A character reference: strconv.ParseUint and the test against
    unicode.MaxRune. *)
Definition char_ref (hex : bool) (ds : str) : option str :=
  let n := number (if hex then 16 else 10) ds in
  if negb (null ds) && (n <=? 1114111)%N then Some (encode_rune n) else None.

(** The predefined entities. *)
Definition named_entity (nm : str) : option str :=
  if str_eqb nm (bs "lt") then Some (bs "<")
  else if str_eqb nm (bs "gt") then Some (bs ">")
  else if str_eqb nm (bs "amp") then Some (bs "&")
  else if str_eqb nm (bs "apos") then Some (bs "'")
  else if str_eqb nm (bs "quot") then Some [chr 34]
  else None.

(** The part of Decoder.text that follows an ampersand: what it contributes to
    the text, and the rest of the input. Unknown entities are errors in strict
    mode and stay as they are otherwise. *)
Definition entity (strict : bool) (s : str) : option (str * str) :=
  let or_raw (o : option str) (raw rest : str) :=
    match o with
    | Some t => Some (t, rest)
    | None => if strict then None else Some (raw, rest)
    end in
  match after (bs "#") s with
  | Some s1 =>
      let hex := has_prefix (bs "x") s1 in
      let (ds, rest) := span (if hex then is_hex else is_digit) (if hex then tl s1 else s1) in
      let raw := bs "&#" ++ (if hex then bs "x" else []) ++ ds in
      if null rest then None
      else match after (bs ";") rest with
           | Some rest' => or_raw (char_ref hex ds) (raw ++ bs ";") rest'
           | None => or_raw None raw rest
           end
  | None =>
      let (nm, rest) := span name_or_high s in
      if null rest then None
      else match after (bs ";") rest with
           | Some rest' => or_raw (named_entity nm) (bs "&" ++ nm ++ bs ";") rest'
           | None => or_raw None (bs "&" ++ nm) rest
           end
  end.

(** Decoder.text without its last check. [b0] and [b1] are the two characters
    before the current one, [acc] is the text so far, reversed. *)
Fixpoint text_loop (fuel : nat) (strict : bool) (quote : option ascii) (cdata : bool)
  (b0 b1 : ascii) (acc s : str) : option (str * str) :=
  match fuel with
  | O => None
  | S fuel =>
      match s with
      | [] => if cdata then None else Some (rev acc, [])
      | b :: s' =>
          if Ascii.eqb b0 "]" && Ascii.eqb b1 "]" && Ascii.eqb b ">" then
            if cdata then Some (rev (skipn 2 acc), s') else None
          else if Ascii.eqb b "<" && negb cdata then
            match quote with None => Some (rev acc, s) | Some _ => None end
          else if (match quote with Some q => Ascii.eqb b q | None => false end) then
            Some (rev acc, s')
          else if Ascii.eqb b "&" && negb cdata then
            match entity strict s' with
            | None => None
            | Some (t, rest) =>
                text_loop fuel strict quote cdata (chr 0) (chr 0) (rev t ++ acc) rest
            end
          else
            text_loop fuel strict quote cdata b1 b
              (if Ascii.eqb b cr then nl :: acc
               else if Ascii.eqb b1 cr && Ascii.eqb b nl then acc
               else b :: acc) s'
      end
  end.

Definition read_text (strict : bool) (quote : option ascii) (cdata : bool) (s : str) :
  option (str * str) :=
  r <- text_loop (S (length s)) strict quote cdata (chr 0) (chr 0) [] s ;;
  if xml_text (fst r) then Some r else None.

(** procInst: the value of a parameter in a processing instruction. *)
Definition proc_param (param inst : str) : str :=
  match split2 (param ++ bs "=") inst with
  | Some (_, q :: v) =>
      if Ascii.eqb q "'" || (code q =? 34)%N then
        match split2 [q] v with Some (a, _) => a | None => [] end
      else []
  | _ => []
  end.

(** The rest of a directive, after its first character. *)
Fixpoint skip_directive (fuel : nat) (quote : option ascii) (depth : nat) (s : str) : option str :=
  match fuel, s with
  | S fuel, b :: s' =>
      match quote with
      | Some q => skip_directive fuel (if Ascii.eqb b q then None else quote) depth s'
      | None =>
          if Ascii.eqb b ">" then
            match depth with O => Some s' | S d => skip_directive fuel None d s' end
          else if Ascii.eqb b "'" || (code b =? 34)%N then skip_directive fuel (Some b) depth s'
          else if Ascii.eqb b "<" then
            if has_prefix (bs "!--") s' then
              match split2 (bs "-->") (skipn 3 s') with
              | Some (_, rest) => skip_directive fuel None depth rest
              | None => None
              end
            else skip_directive fuel None (S depth) s'
          else skip_directive fuel None depth s'
      end
  | _, _ => None
  end.

(** Decoder.attrval. *)
Definition attr_value (strict : bool) (s : str) : option str :=
  match s with
  | [] => None
  | q :: s' =>
      if Ascii.eqb q "'" || (code q =? 34)%N then
        option_map snd (read_text strict (Some q) false s')
      else if strict then None
      else
        let (v, rest) := span (fun c => is_upper c || is_lower c || is_digit c ||
                                        (code c =? 95)%N || (code c =? 58)%N || (code c =? 45)%N) s in
        if null rest then None else Some rest
  end.

(** The attributes of a start tag: whether the element is empty, and the input
    after the tag. *)
Fixpoint attributes (fuel : nat) (strict : bool) (s : str) : option (bool * str) :=
  match fuel with
  | O => None
  | S fuel =>
      let s0 := skip_space s in
      match after (bs "/") s0, after (bs ">") s0 with
      | Some s1, _ => option_map (pair true) (after (bs ">") s1)
      | None, Some s1 => Some (false, s1)
      | None, None =>
          n <- read_name s0 ;;
          let s1 := skip_space (snd n) in
          match after (bs "=") s1 with
          | Some s2 => s3 <- attr_value strict (skip_space s2) ;; attributes fuel strict s3
          | None => if strict || null s1 then None else attributes fuel strict s1
          end
      end
  end.

(** The part of Decoder.rawToken that follows a '<': the tokens (two for an
    empty element tag) and the rest. In order: end tags, processing instructions,
    comments, CDATA sections, directives, start tags. *)
Definition read_end_tag (s : str) : option (list token * str) :=
  n <- read_name s ;;
  s1 <- after (bs ">") (skip_space (snd n)) ;;
  let (sp, lo) := split_name (fst n) in Some ([TEnd sp lo], s1).

Definition read_proc_inst (s : str) : option (list token * str) :=
  n <- read_name s ;;
  p <- split2 (bs "?>") (skip_space (snd n)) ;;
  if str_eqb (fst n) (bs "xml") &&
     negb (null (proc_param (bs "version") (fst p))) &&
     negb (str_eqb (proc_param (bs "version") (fst p)) (bs "1.0")) then None
  else Some ([TProc (fst n) (fst p)], snd p).

Definition read_comment (s : str) : option (list token * str) :=
  s1 <- after (bs "-") s ;;
  p <- split2 (bs "--") s1 ;;
  rest <- after (bs ">") (snd p) ;;
  Some ([TMisc], rest).

Definition read_cdata (strict : bool) (s : str) : option (list token * str) :=
  s1 <- after (bs "CDATA[") s ;;
  r <- read_text strict None true s1 ;;
  Some ([TChar (fst r)], snd r).

Definition read_directive (s : str) : option (list token * str) :=
  match s with
  | [] => None
  | _ :: s1 => rest <- skip_directive (length s1) None 0 s1 ;; Some ([TMisc], rest)
  end.

Definition read_start_tag (strict : bool) (s : str) : option (list token * str) :=
  n <- read_name s ;;
  a <- attributes (S (length (snd n))) strict (snd n) ;;
  let (sp, lo) := split_name (fst n) in
  Some (if fst a then [TStart sp lo; TEnd sp lo] else [TStart sp lo], snd a).

Definition read_tag (strict : bool) (s : str) : option (list token * str) :=
  match after (bs "/") s, after (bs "?") s, after (bs "!") s with
  | Some s1, _, _ => read_end_tag s1
  | None, Some s1, _ => read_proc_inst s1
  | None, None, Some s1 =>
      match after (bs "-") s1, after (bs "[") s1 with
      | Some s2, _ => read_comment s2
      | None, Some s2 => read_cdata strict s2
      | None, None => read_directive s1
      end
  | None, None, None => read_start_tag strict s
  end.

(** All tokens up to the end of the input or to the first syntax error; for the
    users of the Decoder in /repo both are errors, so the two are not told
    apart. *)
Fixpoint lex_fuel (fuel : nat) (strict : bool) (s : str) : list token :=
  match fuel with
  | O => []
  | S fuel =>
      match s with
      | [] => []
      | c :: s1 =>
          match (if Ascii.eqb c "<" then read_tag strict s1
                 else option_map (fun r => ([TChar (fst r)], snd r)) (read_text strict None false s)) with
          | Some (ts, rest) => ts ++ lex_fuel fuel strict rest
          | None => []
          end
      end
  end.

Definition lex (strict : bool) (s : str) : list token := lex_fuel (length s) strict s.

(** ** Elements *)

(** strings.EqualFold for names of leaf elements, all of them upper case
    ASCII. *)
Definition upper (c : ascii) : ascii := if is_lower c then chr (code c - 32) else c.
Definition fold_member (nm : str) (l : list str) : bool := member (map upper nm) l.

(** The open elements, the innermost first: name space, name and the content so
    far, the latest first. *)
Definition frames := list (str * str * list node).

Inductive outcome :=
| Done (n : node)
| Going (f : frames)
| Fail.

(** The innermost open element ends. *)
Definition close (f : frames) : outcome :=
  match f with
  | [] => Fail
  | [(_, nm, kids)] => Done (Elem nm (rev kids))
  | (_, nm, kids) :: (sp, p, pk) :: rest => Going ((sp, p, Elem nm (rev kids) :: pk) :: rest)
  end.

Definition add_kid (n : node) (f : frames) : outcome :=
  match f with
  | [] => Fail
  | (sp, nm, kids) :: rest => Going ((sp, nm, n :: kids) :: rest)
  end.

(** Decoder.Token for the next raw token: autoClose (only if not strict) and
    popElement. An open element of the list [leaves] is closed by any token but
    text and its own end tag; if not strict, an end tag closes all elements up
    to the one it names. [fuel] is the number of open elements. *)
Fixpoint feed (fuel : nat) (strict : bool) (leaves : list str) (t : token) (f : frames) : outcome :=
  match fuel, f with
  | S fuel, (sp, nm, _) :: _ =>
      let again := match close f with
                   | Going f' => feed fuel strict leaves t f'
                   | r => r
                   end in
      let leaf := negb strict && fold_member nm leaves in
      match t with
      | TChar s => add_kid (Text s) f
      | TEnd sp' nm' =>
          if str_eqb nm nm' then if str_eqb sp sp' then close f else Fail
          else if strict then Fail else again
      | TStart sp' nm' => if leaf then again else Going ((sp', nm', []) :: f)
      | _ => if leaf then again else add_kid Misc f
      end
  | _, _ => Fail
  end.

(** Read tokens until the outermost of the open elements ends. *)
Fixpoint read_element (strict : bool) (leaves : list str) (ts : list token) (f : frames) : option node :=
  match ts with
  | [] => None
  | t :: ts' =>
      match feed (length f) strict leaves t f with
      | Done n => Some n
      | Going f' => read_element strict leaves ts' f'
      | Fail => None
      end
  end.
