(** Model of /repo/types.go.

    Every UnmarshalXML method there first decodes the text content of its
    element with d.DecodeElement(&value, &start); the functions below take that
    text. MarshalXML methods call e.EncodeElement(text, start); the functions
    below return that text. *)
From Coq Require Import QArith.
From Verif Require Import GoStr GoNum GoRat GoTime.
Local Open Scope Z_scope.

(** The environment: the local time zone of the process (used by time.Parse)
    and the currency table of golang.org/x/text/currency. *)
Record env := mkEnv {
  env_local : Z -> str * Z;       (* zone name and offset at an instant (s) *)
  env_currency : str -> bool      (* is this three letter code in the table? *)
}.

(** ** Int, types.go:17-43 *)

(** Int.UnmarshalXML, types.go:21-38. *)
Definition int_unmarshal (value : str) : option Z := parse_int (trim_space value).

(** Int has no MarshalXML: encoding/xml writes int64 with strconv.FormatInt. *)
Definition int_marshal (i : Z) : str := fmt_d i.

(** ** Amount, types.go:45-86 *)

(** Amount.UnmarshalXML, types.go:53-71. *)
Definition amount_unmarshal (value : str) : option Q :=
  rat_set_string (replace_first "," "." (trim_space value)).

(** Amount.String, types.go:74-76, and MarshalXML, types.go:79-81. *)
Definition amount_string (a : Q) : str :=
  trim_right_char "." (trim_right_char "0" (rat_float_string a 100)).

(** Amount.Equal, types.go:84-86. *)
Definition amount_equal (a o : Q) : bool := rat_cmp_eq a o.

(** ** Date, types.go:88-212 *)

(** The submatches 1, 3 and 5 of ofxDateZoneRegex, types.go:100:
    ^([+-]?[0-9]+)(\.([0-9]{2}))?(:([A-Z]+))?$ *)
Definition zone_name_part (s : str) : option str :=
  match s with
  | [] => Some []
  | c :: n =>
      if Ascii.eqb c ":" then
        match n with
        | [] => None
        | _ => if forallb is_upper n then Some n else None
        end
      else None
  end.

Definition zone_match (s : str) : option (str * str * str) :=
  let '(sign, s1) :=
    match s with
    | c :: s' => if Ascii.eqb c "+" || Ascii.eqb c "-" then ([c], s') else ([], s)
    | [] => ([], s)
    end in
  let n := digit_run s1 in
  let hours := sign ++ firstn n s1 in
  let s2 := skipn n s1 in
  match n with
  | O => None
  | _ =>
      match s2 with
      | c :: c1 :: c2 :: s3 =>
          if Ascii.eqb c "." && is_digit c1 && is_digit c2 then
            match zone_name_part s3 with
            | Some name => Some (hours, [c1; c2], name)
            | None => None
            end
          else
            match zone_name_part s2 with
            | Some name => Some (hours, [], name)
            | None => None
            end
      | _ =>
          match zone_name_part s2 with
          | Some name => Some (hours, [], name)
          | None => None
          end
      end
  end.

(** The zone part of Date.UnmarshalXML, types.go:117-154: from the text after
    "[" to the zone value handed to time.Parse and its layout. *)
Definition date_zone (z : str) : option (str * list chunk) :=
  match zone_match (trim_right_char "]" z) with
  | None => None
  | Some (hours, mins, name) =>
      match parse_int hours with
      | None => None
      | Some zonehours =>
          match (match mins with
                 | [] => Some 0
                 | _ => match parse_int mins with
                        | Some m => Some (Z.quot (m * 60) 100)
                        | None => None
                        end
                 end) with
          | None => None
          | Some zoneminutes =>
              let zone := " "%char :: fmt_plus_03d zonehours ++ fmt_02d zoneminutes in
              match name with
              | _ :: _ => Some (zone ++ " "%char :: name, [CSpace; CNumTZ; CSpace; CTZ])
              | [] =>
                  if (zonehours =? 0) && (zoneminutes =? 0)
                  then Some (zone ++ bs " GMT", [CSpace; CNumTZ; CSpace; CTZ])
                  else Some (zone, [CSpace; CNumTZ])
              end
          end
      end
  end.

(** The loop over ofxDateFormats, types.go:157-164. *)
Fixpoint try_formats (local : Z -> str * Z) (fmts : list (list chunk))
         (zfmt : list chunk) (v : str) : option gotime :=
  match fmts with
  | [] => None
  | f :: fmts' =>
      match time_parse local (f ++ zfmt) v with
      | Some t => Some t
      | None => try_formats local fmts' zfmt v
      end
  end.

(** Date.UnmarshalXML, types.go:106-166. *)
Definition date_unmarshal (e : env) (value0 : str) : option gotime :=
  let value1 := match split2 (bs "]") value0 with
                | Some (v, _) => v | None => value0 end in
  let value2 := trim_space value1 in
  match split2 (bs "[") value2 with
  | Some (v, z) =>
      match date_zone z with
      | None => None
      | Some (zone, zfmt) => try_formats (env_local e) date_formats zfmt (v ++ zone)
      end
  | None =>
      try_formats (env_local e) date_formats [CSpace; CNumTZ; CSpace; CTZ]
                  (value2 ++ bs " +0000 GMT")
  end.

(** Date.String, types.go:169-188, and MarshalXML, types.go:191-193. *)
Definition date_string (t : gotime) : str :=
  let off := t_off t in
  let frac := Z.quot (Z.rem off 3600) 36 in
  format_ms t ++ "["%char ::
  (if off <? 0 then fmt_plus_d (Z.quot off 3600) else fmt_d (Z.quot off 3600)) ++
  (if 0 <? frac then "."%char :: fmt_02d frac
   else if frac <? 0 then "."%char :: fmt_02d (- frac) else []) ++
  (match t_zone t with [] => [] | n => ":"%char :: n end) ++ ["]"%char].

(** Date.Equal, types.go:197-199. *)
Definition date_equal (a b : gotime) : bool := time_equal a b.

(** ** String, types.go:214-237 *)

(** String.UnmarshalXML, types.go:219-227. *)
Definition string_unmarshal (value : str) : str := trim_space value.

(** String has no MarshalXML: the text is the string itself. *)
Definition string_marshal (s : str) : str := s.

(** ** Boolean, types.go:239-278 *)

(** Boolean.UnmarshalXML, types.go:244-260. *)
Definition boolean_unmarshal (value : str) : option bool :=
  let v := trim_space value in
  if str_eqb v (bs "Y") then Some true
  else if str_eqb v (bs "N") then Some false
  else None.

(** Boolean.MarshalXML, types.go:263-268. *)
Definition boolean_marshal (b : bool) : str := if b then bs "Y" else bs "N".

(** ** UID, types.go:280-333 *)

(** UID.UnmarshalXML, types.go:285-293. *)
Definition uid_unmarshal (value : str) : str := trim_space value.

(** UID.RecommendedFormat, types.go:297-305. The indexed bytes exist when the
    length test has passed. *)
Definition uid_recommended (u : str) : bool :=
  if negb (Nat.eqb (length u) 36) then false
  else
    let at_is_hyphen n := match nth_error u n with
                          | Some c => Ascii.eqb c "-" | None => false end in
    if negb (at_is_hyphen 8%nat) || negb (at_is_hyphen 13%nat) ||
       negb (at_is_hyphen 18%nat) || negb (at_is_hyphen 23%nat)
    then false else true.

(** UID.Valid, types.go:309-314. *)
Definition uid_valid (u : str) : bool :=
  if Nat.eqb (length u) 0 || Nat.ltb 36 (length u) then false else true.

(** The result of rand.Read on a 16 byte buffer: an error, or the contents of
    the buffer and the count. *)
Inductive rand_result :=
| RandErr
| RandRead (buf : str) (n : Z).

(** RandomUID, types.go:322-333. *)
Definition random_uid (r : rand_result) : option str :=
  match r with
  | RandErr => None
  | RandRead buf n =>
      if negb (n =? 16) then None
      else
        let sl a b := firstn (b - a) (skipn a buf) in
        Some (fmt_hex (sl 0 4)%nat ++ "-"%char :: fmt_hex (sl 4 6)%nat ++
              "-"%char :: fmt_hex (sl 6 8)%nat ++ "-"%char :: fmt_hex (sl 8 10)%nat ++
              "-"%char :: fmt_hex (sl 10 16)%nat)
  end.

(** ** CurrSymbol, types.go:335-386

    A currency.Unit is represented by the code its String method prints; the
    zero Unit prints XXX. *)

(** tag.FixCase("XXX", key) for one character. *)
Definition fix_case (c : ascii) : option ascii :=
  let n := code c in
  let n := if (97 <=? n)%N then (n - 32)%N else n in
  if (65 <=? n)%N && (n <=? 90)%N then Some (chr n) else None.

Fixpoint fix_case_all (s : str) : option str :=
  match s with
  | [] => Some []
  | c :: s' => match fix_case c, fix_case_all s' with
               | Some c', Some s2 => Some (c' :: s2)
               | _, _ => None
               end
  end.

(** currency.ParseISO. *)
Definition parse_iso (e : env) (s : str) : option str :=
  if negb (Nat.eqb (length s) 3) then None
  else match fix_case_all s with
       | Some k => if env_currency e k then Some k else None
       | None => None
       end.

(** CurrSymbol.UnmarshalXML, types.go:342-358. *)
Definition curr_unmarshal (e : env) (value : str) : option str :=
  parse_iso e (trim_space value).

(** CurrSymbol.MarshalXML, types.go:361-363. *)
Definition curr_marshal (c : str) : str := c.

(** CurrSymbol.Equal, types.go:366-368. *)
Definition curr_equal (c o : str) : bool := str_eqb c o.

(** CurrSymbol.Valid, types.go:371-376. *)
Definition curr_valid (c : str) : bool := negb (str_eqb c (bs "XXX")).

(** NewCurrSymbol, types.go:380-386. *)
Definition new_curr_symbol (e : env) (s : str) : option str := parse_iso e s.
