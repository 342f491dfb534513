(** Model of the OFX headers: writeHeader in /repo/common.go and guessVersion,
    readSGMLHeaders and readXMLHeaders in /repo/response.go. *)
From Verif Require Import GoStr Enums EnumTables Codec Xml.

(** ** Writing *)

(** v.String() for a valid version, constants.go:34-46. *)
Definition version_text (v : N) : str :=
  match enum_string enum_ofxVersion v with Some s => s | None => [] end.

(** The literal of writeHeader, common.go:18-28. *)
Definition sgml_header_lines (v : N) : list str :=
  [ bs "OFXHEADER:100"; bs "DATA:OFXSGML"; bs "VERSION:" ++ version_text v; bs "SECURITY:NONE";
    bs "ENCODING:USASCII"; bs "CHARSET:1252"; bs "COMPRESSION:NONE"; bs "OLDFILEUID:NONE";
    bs "NEWFILEUID:NONE"; []; [] ].

Definition sgml_header (v : N) : str := join [nl] (sgml_header_lines v).

(** common.go:35 and 40. *)
Definition quoted (s : str) : str := [chr 34] ++ s ++ [chr 34].

Definition xml_declaration : str :=
  bs "<?xml version=" ++ quoted (bs "1.0") ++ bs " encoding=" ++ quoted (bs "UTF-8") ++
  bs " standalone=" ++ quoted (bs "no") ++ bs "?>".

Definition ofx_instruction (v : N) : str :=
  bs "<?OFX OFXHEADER=" ++ quoted (bs "200") ++ bs " VERSION=" ++ quoted (version_text v) ++
  bs " SECURITY=" ++ quoted (bs "NONE") ++ bs " OLDFILEUID=" ++ quoted (bs "NONE") ++
  bs " NEWFILEUID=" ++ quoted (bs "NONE") ++ bs "?>".

(** writeHeader, common.go:14-48: what it appends to the buffer. For a version
    that is not valid it appends nothing and returns an error ([None]). *)
Definition write_header (v : N) (crlf : bool) : option str :=
  let eol := if crlf then [cr; nl] else [nl] in
  if ((OfxVersion102 <=? v) && (v <=? OfxVersion160))%N then
    Some (if crlf then replace_all nl [cr; nl] (sgml_header v) else sgml_header v)
  else if ((OfxVersion200 <=? v) && (v <=? OfxVersion220))%N then
    Some (xml_declaration ++ eol ++ ofx_instruction v ++ eol)
  else None.

(** ** Reading *)

(** guessVersionCheckBytes, response.go:184; the size of the bufio.Reader too
    (response.go:287). *)
Definition window : nat := 1024.

(** guessVersion, response.go:189-204: true for XML. Peek returns at most 1024
    bytes and never nil, so the error at line 192 does not occur. *)
Definition guess_xml (s : str) : bool :=
  let b := firstn window s in
  match index_of (bs "OFXHEADER:") b, index_of (bs "OFXHEADER=") b with
  | None, _ => true
  | Some _, None => false
  | Some sgml, Some xml => Nat.leb xml sgml
  end.

(** The classes of the regular expression: \s, \d, [A-Z], \w and the like. *)
Definition re_space (c : ascii) : bool :=
  ((code c =? 9) || (code c =? 10) || (code c =? 12) || (code c =? 13) || (code c =? 32))%N.
Definition re_word (c : ascii) : bool := is_digit c || is_upper c || is_lower c || (code c =? 95)%N.
Definition re_dash (c : ascii) : bool := Ascii.eqb c "-".

(** The nine groups, response.go:56-65. *)
Definition sgml_entries : list (str * (ascii -> bool)) :=
  [ (bs "OFXHEADER:", is_digit);
    (bs "DATA:", is_upper);
    (bs "VERSION:", is_digit);
    (bs "SECURITY:", re_word);
    (bs "ENCODING:", fun c => is_upper c || is_digit c || re_dash c);
    (bs "CHARSET:", fun c => re_word c || re_dash c);
    (bs "COMPRESSION:", is_upper);
    (bs "OLDFILEUID:", fun c => re_word c || re_dash c);
    (bs "NEWFILEUID:", fun c => re_word c || re_dash c) ].

Definition skip_re_space (s : str) : str := snd (span re_space s).

(** A greedy repetition [p]+ with backtracking: the lengths from [k] down to 1. *)
Fixpoint try_lengths (k : nat) (s : str) (next : str -> option (list str)) : option (list str) :=
  match k with
  | O => None
  | S k' =>
      match next (skipn k s) with
      | Some r => Some (firstn k s :: r)
      | None => try_lengths k' s next
      end
  end.

(** FindStringSubmatch of  ^KEY:\s*([class]+)\s* ... <$ . No class contains white
    space and no key starts with it, so the \s* need no backtracking. *)
Fixpoint match_entries (es : list (str * (ascii -> bool))) (s : str) : option (list str) :=
  match es with
  | [] => if str_eqb s (bs "<") then Some [] else None
  | (key, p) :: es' =>
      s1 <- after key s ;;
      let s2 := skip_re_space s1 in
      try_lengths (length (fst (span p s2))) s2 (fun r => match_entries es' (skip_re_space r))
  end.

(** The switch of readSGMLHeaders, response.go:72-106. *)
Definition check_sgml (values : list str) : option N :=
  match values with
  | [ofxheader; data; version; security; encoding; charset; compression; olduid; newuid] =>
      if negb (str_eqb ofxheader (bs "100")) then None
      else if negb (str_eqb data (bs "OFXSGML")) then None
      else
        match enum_from_string enum_ofxVersion version with
        | (v, true) =>
            if (OfxVersion160 <? v)%N then None
            else if negb (str_eqb security (bs "NONE") || str_eqb security (bs "TYPE1")) then None
            else if negb (str_eqb compression (bs "NONE")) then None
            else Some v
        | (_, false) => None
        end
  | _ => None
  end.

(** readSGMLHeaders, response.go:38-109: the version and the input from the first
    '<' on. ReadSlice fails unless the '<' is in the first 1024 bytes. *)
Definition read_sgml_headers (s : str) : option (N * str) :=
  i <- index_of (bs "<") s ;;
  if Nat.leb window i then None
  else
    values <- match_entries sgml_entries (firstn (S i) s) ;;
    v <- check_sgml values ;;
    Some (v, skipn i s).

(** The state of the loop over the attributes: OFXHEADER seen, the last
    VERSION. *)
Fixpoint xml_header_loop (fuel : nat) (headers : str) (seen : bool) (version : option N) : option N :=
  match fuel with
  | O => None
  | S fuel =>
      match headers with
      | [] => if seen then version else None
      | _ =>
          a <- split2 (bs "=" ++ [chr 34]) headers ;;
          b <- split2 [chr 34] (snd a) ;;
          let header := fst a in
          let value := fst b in
          let rest := trim_space (snd b) in
          if str_eqb header (bs "OFXHEADER") then
            if str_eqb value (bs "200") then xml_header_loop fuel rest true version else None
          else if str_eqb header (bs "VERSION") then
            match enum_from_string enum_ofxVersion value with
            | (v, true) =>
                if (v <? OfxVersion200)%N then None else xml_header_loop fuel rest seen (Some v)
            | (_, false) => None
            end
          else if str_eqb header (bs "SECURITY") then
            if str_eqb value (bs "NONE") then xml_header_loop fuel rest seen version else None
          else if str_eqb header (bs "OLDFILEUID") || str_eqb header (bs "NEWFILEUID") then
            xml_header_loop fuel rest seen version
          else None
      end
  end.

(** response.go:125-174. *)
Definition xml_header (inst : str) : option N :=
  let headers := trim_space inst in
  xml_header_loop (S (length headers)) headers false None.

(** nextNonWhitespaceToken, util.go:11-25, outside of any element. *)
Fixpoint next_token (ts : list token) : option (token * list token) :=
  match ts with
  | [] => None
  | TChar s :: ts' => if blank s then next_token ts' else Some (TChar s, ts')
  | t :: ts' => Some (t, ts')
  end.

(** readXMLHeaders, response.go:111-180. *)
Definition read_xml_headers (ts : list token) : option (N * list token) :=
  a <- next_token ts ;;
  match fst a with
  | TProc target _ =>
      if negb (str_eqb target (bs "xml")) then None
      else
        b <- next_token (snd a) ;;
        match fst b with
        | TProc target inst =>
            if negb (str_eqb target (bs "OFX")) then None
            else v <- xml_header inst ;; Some (v, snd b)
        | _ => None
        end
  | _ => None
  end.
