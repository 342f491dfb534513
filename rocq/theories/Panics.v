(** The functions of /repo that index, slice or dereference, with these operations
    as Go has them: they end the program if there is nothing at the place. The other
    model files have the same functions with total operations. Type assertions in
    /repo are all of the form that does not panic, except response.go:258, of a value
    whose type comes from a table of Messages. *)
From Coq Require Import ZArith.
From Verif Require Import GoStr GoNum GoTime Types Enums EnumTables Records Codec Xml StatusTable Common Messages Document Headers.

(** A computation that panics or returns. *)
Inductive go (A : Type) : Type :=
| Returns (a : A)
| Panics.
Arguments Returns {A} a.
Arguments Panics {A}.

Definition bind_go {A B} (p : go A) (f : A -> go B) : go B :=
  match p with Returns a => f a | Panics => Panics end.
Notation "x <! p ; k" := (bind_go p (fun x => k)) (at level 61, p at next level, right associativity).

(** s[i]. *)
Definition at_index {A} (s : list A) (i : nat) : go A :=
  match nth_error s i with Some a => Returns a | None => Panics end.

(** s[lo:hi], of a slice with as much capacity as length. *)
Definition between (s : str) (lo hi : nat) : go str :=
  if Nat.leb lo hi && Nat.leb hi (length s) then Returns (firstn (hi - lo) (skipn lo s)) else Panics.

(** *p, also in p.f. *)
Definition deref {A} (p : option A) : go A :=
  match p with Some a => Returns a | None => Panics end.

(** strings.SplitN(s, sep, 2) and bytes.SplitN(s, sep, 2), for a [sep] that is not empty. *)
Definition split_n2 (s sep : str) : list str :=
  match split2 sep s with Some (a, b) => [a; b] | None => [s] end.

(** ** types.go *)

(** UID.RecommendedFormat, types.go:297-305. *)
Definition uid_recommended_go (u : str) : go bool :=
  if negb (Nat.eqb (length u) 36) then Returns false
  else
    a <! at_index u 8; if negb (Ascii.eqb a "-") then Returns false else
    b <! at_index u 13; if negb (Ascii.eqb b "-") then Returns false else
    c <! at_index u 18; if negb (Ascii.eqb c "-") then Returns false else
    d <! at_index u 23; if negb (Ascii.eqb d "-") then Returns false else
    Returns true.

(** RandomUID, types.go:322-333. *)
Definition random_uid_go (r : rand_result) : go (option str) :=
  match r with
  | RandErr => Returns None
  | RandRead uidbytes n =>
      if negb (n =? 16)%Z then Returns None
      else
        a <! between uidbytes 0 4;
        b <! between uidbytes 4 6;
        c <! between uidbytes 6 8;
        d <! between uidbytes 8 10;
        e <! between uidbytes 10 (length uidbytes);
        Returns (Some (fmt_hex a ++ "-"%char :: fmt_hex b ++ "-"%char :: fmt_hex c ++ "-"%char :: fmt_hex d ++ "-"%char :: fmt_hex e))
  end.

(** FindStringSubmatch of ofxDateZoneRegex, types.go:100 and 123: nil or the whole
    match and the five groups, which are empty if they take no part. *)
Definition zone_submatches (s : str) : list str :=
  match zone_match s with
  | None => []
  | Some (hours, mins, name) =>
      [s; hours; match mins with [] => [] | _ => "."%char :: mins end; mins; match name with [] => [] | _ => ":"%char :: name end; name]
  end.

(** The zone part of Date.UnmarshalXML, types.go:121-154. *)
Definition date_zone_go (z : str) : go (option (str * list chunk)) :=
  let matches := zone_submatches (trim_right_char "]" z) in
  match matches with
  | [] => Returns None
  | _ =>
      m1 <! at_index matches 1;
      match parse_int m1 with
      | None => Returns None
      | Some zonehours =>
          m3 <! at_index matches 3;
          match (match m3 with
                 | [] => Some 0%Z
                 | _ => match parse_int m3 with Some m => Some (Z.quot (m * 60) 100) | None => None end
                 end) with
          | None => Returns None
          | Some zoneminutes =>
              let zone := " "%char :: fmt_plus_03d zonehours ++ fmt_02d zoneminutes in
              m5 <! at_index matches 5;
              Returns (match m5 with
                       | _ :: _ => Some (zone ++ " "%char :: m5, [CSpace; CNumTZ; CSpace; CTZ])
                       | [] =>
                           if ((zonehours =? 0) && (zoneminutes =? 0))%Z
                           then Some (zone ++ bs " GMT", [CSpace; CNumTZ; CSpace; CTZ])
                           else Some (zone, [CSpace; CNumTZ])
                       end)
          end
      end
  end.

(** Date.UnmarshalXML, types.go:106-166. *)
Definition date_unmarshal_go (e : env) (value0 : str) : go (option gotime) :=
  value1 <! at_index (split_n2 value0 (bs "]")) 0;
  let value2 := trim_space value1 in
  let split := split_n2 value2 (bs "[") in
  if Nat.eqb (length split) 2 then
    v <! at_index split 0;
    z <! at_index split 1;
    zf <! date_zone_go z;
    Returns (match zf with
             | None => None
             | Some (zone, zfmt) => try_formats (env_local e) date_formats zfmt (v ++ zone)
             end)
  else
    Returns (try_formats (env_local e) date_formats [CSpace; CNumTZ; CSpace; CTZ] (value2 ++ bs " +0000 GMT")).

(** ** common.go *)

(** statusMeanings[code], common.go:166: a [3]string. *)
Definition status_array (code : Z) : option (list str) :=
  match status_lookup code status_meanings with Some (a, b, c) => Some [a; b; c] | None => None end.

(** Status.Valid, common.go:272-288. *)
Definition status_valid_go (s : Status) : go validity :=
  let sev := Status_Severity s in
  if str_eqb sev (bs "INFO") || str_eqb sev (bs "WARN") || str_eqb sev (bs "ERROR") then
    match status_array (Status_Code s) with
    | Some arr => severity <! at_index arr 1; Returns (check (negb (str_eqb severity sev)) "Unexpected SEVERITY for STATUS>CODE")
    | None => Returns (invalid "Unknown OFX status code")
    end
  else Returns (invalid "Invalid STATUS>SEVERITY").

(** Status.CodeMeaning, common.go:291-296. *)
Definition status_code_meaning_go (s : Status) : go (option str) :=
  match status_array (Status_Code s) with Some arr => m <! at_index arr 0; Returns (Some m) | None => Returns None end.

(** Status.CodeConditions, common.go:300-305. *)
Definition status_code_conditions_go (s : Status) : go (option str) :=
  match status_array (Status_Code s) with Some arr => m <! at_index arr 2; Returns (Some m) | None => Returns None end.

(** ** bank.go *)

(** One check after the other: the first error is returned. *)
Definition and_then (a b : go validity) : go validity :=
  v <! a; match v with Some err => Returns (Some err) | None => b end.
Notation "a ;;! b" := (and_then a b) (at level 62, right associativity).

Definition checked (c : bool) (s : string) : go validity := Returns (check c s).

(** for _, x := range l { if ok, err := x.Valid(); !ok { return false, err } }. *)
Fixpoint all_valid_go {A} (f : A -> go validity) (l : list A) : go validity :=
  match l with [] => Returns None | x :: l' => f x ;;! all_valid_go f l' end.

(** Transaction.Valid, bank.go:135-180. *)
Definition transaction_valid_go (t : Transaction) (version : N) : go validity :=
  checked (negb (enum_valid enum_trnType (Transaction_TrnType t)) ||
           (Transaction_TrnType t =? TrnTypeHold)%N) "Transaction.TrnType invalid" ;;!
  checked (date_empty (Transaction_DtPosted t)) "Transaction.DtPosted not filled" ;;!
  checked (empty (Transaction_FiTID t)) "Transaction.FiTID empty" ;;!
  checked (negb (empty (Transaction_CorrectFiTID t)) && enum_valid enum_correctAction (Transaction_CorrectAction t))
          "Transaction.CorrectFiTID nonempty but CorrectAction invalid" ;;!
  checked (negb (empty (Transaction_Name t)) && is_some (Transaction_Payee t))
          "Only one of Transaction.Name and Payee may be specified" ;;!
  (if is_some (Transaction_Payee t) then p <! deref (Transaction_Payee t); Returns (payee_valid p) else Returns None) ;;!
  (if is_some (Transaction_BankAcctTo t) && is_some (Transaction_CCAcctTo t)
   then Returns (invalid "Only one of Transaction.BankAcctTo and CCAcctTo may be specified")
   else if is_some (Transaction_BankAcctTo t) then b <! deref (Transaction_BankAcctTo t); Returns (bank_acct_valid b)
   else if is_some (Transaction_CCAcctTo t) then c <! deref (Transaction_CCAcctTo t); Returns (cc_acct_valid c)
   else Returns None) ;;!
  checked ((version <? OfxVersion220)%N && (0 <? length (Transaction_ImageData t))) "Transaction.ImageData only supportd for OFX > 220" ;;!
  checked (2 <? length (Transaction_ImageData t)) "Only 2 of ImageData allowed in Transaction" ;;!
  ok1 <! (if is_some (Transaction_Currency t) then c <! deref (Transaction_Currency t); Returns (is_valid (currency_valid c)) else Returns false);
  ok2 <! (if is_some (Transaction_OrigCurrency t) then c <! deref (Transaction_OrigCurrency t); Returns (is_valid (currency_valid c)) else Returns false);
  checked (ok1 && ok2) "Currency and OrigCurrency both supplied for Pending Transaction, only one allowed".

(** TransactionList.Valid, bank.go:192-206. *)
Definition transaction_list_valid_go (l : TransactionList) (version : N) : go validity :=
  checked (date_empty (TransactionList_DtStart l)) "TransactionList.DtStart not filled" ;;!
  checked (date_empty (TransactionList_DtEnd l)) "TransactionList.DtEnd not filled" ;;!
  all_valid_go (fun t => transaction_valid_go t version) (TransactionList_Transactions l).

(** StatementResponse.Valid, bank.go:326-360. *)
Definition statement_response_valid_go (r : StatementResponse) (version : N) : go validity :=
  Returns (uid_validity (StatementResponse_TrnUID r)) ;;!
  status_valid_go (StatementResponse_Status r) ;;!
  Returns (curr_validity (StatementResponse_CurDef r)) ;;!
  Returns (bank_acct_valid (StatementResponse_BankAcctFrom r)) ;;!
  checked (date_empty (StatementResponse_DtAsOf r)) "StatementResponse.DtAsOf not filled" ;;!
  checked (negb (Bool.eqb (negb (is_some (StatementResponse_AvailBalAmt r))) (negb (is_some (StatementResponse_AvailDtAsOf r)))))
          "StatementResponse.Avail* must both either be present or absent" ;;!
  (if is_some (StatementResponse_BankTranList r)
   then l <! deref (StatementResponse_BankTranList r); transaction_list_valid_go l version
   else Returns None) ;;!
  (if is_some (StatementResponse_BankTranListP r)
   then checked (version <? OfxVersion220)%N "StatementResponse.BankTranListP invalid for OFX < 2.2" ;;!
        l <! deref (StatementResponse_BankTranListP r); Returns (pending_transaction_list_valid l)
   else Returns None) ;;!
  Returns (all_valid balance_valid (StatementResponse_BalList r)).

(** Response.Valid, response.go:376-405: the other messages' methods use no pointer. *)
Definition message_valid_go (m : Message) (version : N) : go validity :=
  match m with
  | MsgStatementResponse r => statement_response_valid_go r version
  | _ => Returns (snd (message_valid m version))
  end.

Fixpoint add_errs_go (ms : list Message) (version : N) (errs : list goerr) : go (list goerr) :=
  match ms with
  | [] => Returns errs
  | m :: ms' => v <! message_valid_go m version; add_errs_go ms' version (add_err errs (plain_err v))
  end.

(** SignonResponse.Valid, signon.go:83-88. *)
Definition signon_response_valid_go (r : SignonResponse) : go validity :=
  if negb (Nat.eqb (length (SignonResponse_Language r)) 3) then
    Returns (Some (bs "SONRS>LANGUAGE invalid length: """ ++ SignonResponse_Language r ++ bs """"))
  else status_valid_go (SignonResponse_Status r).

Definition response_valid_go (r : Response) : go (option goerr) :=
  v <! signon_response_valid_go (rs_signon r);
  errs <! add_errs_go (concat (map fst (set_table (rs_slots r) Rs))) (rs_version r) (add_err [] (plain_err v));
  Returns (err_or_nil errs).

(** ** response.go *)

(** FindStringSubmatch of headerExp, response.go:67. *)
Definition sgml_submatches (s : str) : list str :=
  match match_entries sgml_entries s with Some values => s :: values | None => [] end.

(** headerExp.SubexpNames(), response.go:56-65 and 72. *)
Definition sgml_names : list str :=
  [ []; bs "OFXHEADER"; bs "DATA"; bs "VERSION"; bs "SECURITY"; bs "ENCODING"; bs "CHARSET"; bs "COMPRESSION"; bs "OLDFILEUID"; bs "NEWFILEUID" ].

(** The loop of readSGMLHeaders, response.go:72-106, from the [i]th name on; the
    version that has been read. *)
Fixpoint sgml_loop_go (names : list str) (i : nat) (matches : list str) (version : N) : go (option N) :=
  match names with
  | [] => Returns (Some version)
  | name :: names' =>
      if Nat.eqb i 0 then sgml_loop_go names' (S i) matches version
      else
        value <! at_index matches i;
        if str_eqb name (bs "OFXHEADER") then
          if negb (str_eqb value (bs "100")) then Returns None else sgml_loop_go names' (S i) matches version
        else if str_eqb name (bs "DATA") then
          if negb (str_eqb value (bs "OFXSGML")) then Returns None else sgml_loop_go names' (S i) matches version
        else if str_eqb name (bs "VERSION") then
          match enum_from_string enum_ofxVersion value with
          | (v, true) => if (OfxVersion160 <? v)%N then Returns None else sgml_loop_go names' (S i) matches v
          | (_, false) => Returns None
          end
        else if str_eqb name (bs "SECURITY") then
          if negb (str_eqb value (bs "NONE") || str_eqb value (bs "TYPE1")) then Returns None else sgml_loop_go names' (S i) matches version
        else if str_eqb name (bs "COMPRESSION") then
          if negb (str_eqb value (bs "NONE")) then Returns None else sgml_loop_go names' (S i) matches version
        else sgml_loop_go names' (S i) matches version
  end.

(** readSGMLHeaders, response.go:38-109. *)
Definition read_sgml_headers_go (s : str) : go (option (N * str)) :=
  match index_of (bs "<") s with
  | None => Returns None
  | Some i =>
      if Nat.leb window i then Returns None
      else
        let matches := sgml_submatches (firstn (S i) s) in
        match matches with
        | [] => Returns None
        | _ =>
            v <! sgml_loop_go sgml_names 0 matches 0%N;
            Returns (match v with Some v => Some (v, skipn i s) | None => None end)
        end
  end.

(** The loop of readXMLHeaders, response.go:128-167. *)
Fixpoint xml_header_loop_go (fuel : nat) (headers : str) (seen : bool) (version : option N) : go (option N) :=
  match fuel with
  | O => Returns None
  | S fuel =>
      match headers with
      | [] => Returns (if seen then version else None)
      | _ =>
          let tmp := split_n2 headers (bs "=" ++ [chr 34]) in
          if negb (Nat.eqb (length tmp) 2) then Returns None
          else
            header <! at_index tmp 0;
            headers <! at_index tmp 1;
            let tmp := split_n2 headers [chr 34] in
            if negb (Nat.eqb (length tmp) 2) then Returns None
            else
              value <! at_index tmp 0;
              rest <! at_index tmp 1;
              let rest := trim_space rest in
              if str_eqb header (bs "OFXHEADER") then
                if str_eqb value (bs "200") then xml_header_loop_go fuel rest true version else Returns None
              else if str_eqb header (bs "VERSION") then
                match enum_from_string enum_ofxVersion value with
                | (v, true) => if (v <? OfxVersion200)%N then Returns None else xml_header_loop_go fuel rest seen (Some v)
                | (_, false) => Returns None
                end
              else if str_eqb header (bs "SECURITY") then
                if str_eqb value (bs "NONE") then xml_header_loop_go fuel rest seen version else Returns None
              else if str_eqb header (bs "OLDFILEUID") || str_eqb header (bs "NEWFILEUID") then
                xml_header_loop_go fuel rest seen version
              else Returns None
      end
  end.

Definition xml_header_go (inst : str) : go (option N) :=
  let headers := trim_space inst in
  xml_header_loop_go (S (length headers)) headers false None.
