(** Model of the parts of package [time] that types.go:88-212 uses: the civil
    calendar, Time.Format and time.Parse for the layouts of ofxDateFormats.

    A Time is an instant, in nanoseconds since 0001-01-01T00:00:00 UTC (Go's
    zero time), with the zone that applies at that instant (offset in seconds
    east of UTC and abbreviation): all that Format, Zone and Equal observe. *)
From Verif Require Import GoStr GoNum.
Local Open Scope Z_scope.

Record gotime := mkTime {
  t_ns : Z;        (* nanoseconds since 0001-01-01T00:00:00Z *)
  t_off : Z;       (* zone offset in seconds *)
  t_zone : str     (* zone abbreviation *)
}.

(** The zero Time, in UTC. *)
Definition zero_time : gotime := mkTime 0 0 (bs "UTC").

(** ** Calendar (proleptic Gregorian) *)

Definition is_leap (y : Z) : bool :=
  (y mod 4 =? 0) && (negb (y mod 100 =? 0) || (y mod 400 =? 0)).

(** daysBefore[m-1] in a non-leap year. *)
Definition days_before (m : Z) : Z :=
  match m with
  | 1 => 0 | 2 => 31 | 3 => 59 | 4 => 90 | 5 => 120 | 6 => 151 | 7 => 181
  | 8 => 212 | 9 => 243 | 10 => 273 | 11 => 304 | 12 => 334 | _ => 365
  end.

(** daysIn(m, year). *)
Definition days_in (m y : Z) : Z :=
  if (m =? 2) && is_leap y then 29 else days_before (m + 1) - days_before m.

(** Days from 0001-01-01 to y-01-01 (daysSinceEpoch). *)
Definition days_to_year (y : Z) : Z :=
  365 * (y - 1) + (y - 1) / 4 - (y - 1) / 100 + (y - 1) / 400.

(** time.Date for in-range fields: days from 0001-01-01 to y-m-d. *)
Definition days_of_civil (y m d : Z) : Z :=
  days_to_year y + days_before m +
  (if is_leap y && (3 <=? m) then 1 else 0) + (d - 1).

(** absDate: the civil date of a day number: 400, 100, 4 and 1 year cycles,
    then the month estimate of 31 days per month. *)
Definition civil_of_days (n : Z) : Z * Z * Z :=
  let n400 := n / 146097 in
  let d := n mod 146097 in
  let n100 := d / 36524 in
  let n100 := n100 - n100 / 4 in
  let d := d - 36524 * n100 in
  let n4 := d / 1461 in
  let d := d - 1461 * n4 in
  let n1 := d / 365 in
  let n1 := n1 - n1 / 4 in
  let d := d - 365 * n1 in
  let y := 400 * n400 + 100 * n100 + 4 * n4 + n1 + 1 in
  if is_leap y && (d =? 59) then (y, 2, 29)
  else
    let d := if is_leap y && (59 <? d) then d - 1 else d in
    let m0 := d / 31 in                       (* 0-based month estimate *)
    let fin := days_before (m0 + 2) in
    let '(m, beg) := if fin <=? d then (m0 + 2, fin) else (m0 + 1, days_before (m0 + 1)) in
    (y, m, d - beg + 1).

Definition sec_ns : Z := 1000000000.

(** time.Date(y, mo, d, h, mi, s, ns, zone) for in-range fields. *)
Definition go_date (y mo d h mi s ns : Z) (off : Z) (zone : str) : gotime :=
  mkTime ((days_of_civil y mo d * 86400 + h * 3600 + mi * 60 + s - off) * sec_ns + ns)
         off zone.

(** Time.Equal. *)
Definition time_equal (a b : gotime) : bool := t_ns a =? t_ns b.

(** ** Format with the layout 20060102150405.000 (ofxDateFormats[0]) *)

(** appendInt(b, x, width): zero padded, sign in front. *)
Definition append_int (x : Z) (w : nat) : str :=
  if x <? 0 then "-"%char :: pad0 w (fmt_nat (- x)) else pad0 w (fmt_nat x).

Definition local_secs (t : gotime) : Z := t_ns t / sec_ns + t_off t.

Definition format_ms (t : gotime) : str :=
  let secs := local_secs t in
  let '(y, m, d) := civil_of_days (secs / 86400) in
  let sod := secs mod 86400 in
  append_int y 4 ++ append_int m 2 ++ append_int d 2 ++
  append_int (sod / 3600) 2 ++ append_int (sod mod 3600 / 60) 2 ++
  append_int (sod mod 60) 2 ++
  "."%char :: append_int (t_ns t mod sec_ns / 1000000) 3.

(** ** Parse *)

(** The layout elements that occur in ofxDateFormats and in the zone formats
    " -0700" and " -0700 MST". A space in the layout is skipped by
    [cut_space], so one constructor stands for it. *)
Inductive chunk :=
| CYear        (* 2006 *)
| CMonth       (* 01 *)
| CDay         (* 02 *)
| CHour        (* 15 *)
| CMinute      (* 04 *)
| CSecond      (* 05 *)
| CFrac3       (* .000 *)
| CSpace       (* " " *)
| CNumTZ       (* -0700 *)
| CTZ.         (* MST *)

(** What parsing has collected. *)
Record pstate := mkP {
  p_year : Z; p_month : Z; p_day : Z; p_hour : Z; p_min : Z; p_sec : Z; p_ns : Z;
  p_utc : bool;               (* z == UTC *)
  p_off : option Z;           (* zoneOffset, None for -1 *)
  p_name : str                (* zoneName *)
}.

Definition p_init : pstate := mkP 0 1 1 0 0 0 0 false None [].

(** time.atoi: optional sign, then digits only, at least one. Overflow of int
    does not occur for the at most 9 characters it is used on. *)
Definition time_atoi (s : str) : option Z :=
  match s with
  | c :: s' => if Ascii.eqb c "-" then option_map Z.opp (parse_udec s')
               else if Ascii.eqb c "+" then parse_udec s'
               else parse_udec s
  | [] => None
  end.

(** getnum(s, fixed): one or two digits; two if [fixed]. *)
Definition getnum (fixed : bool) (s : str) : option (Z * str) :=
  match s with
  | c :: s1 =>
      if is_digit c then
        match s1 with
        | d :: s2 => if is_digit d then Some (digit_val c * 10 + digit_val d, s2)
                     else if fixed then None else Some (digit_val c, s1)
        | [] => if fixed then None else Some (digit_val c, s1)
        end
      else None
  | [] => None
  end.

Fixpoint cut_space (s : str) : str :=
  match s with
  | c :: s' => if Ascii.eqb c " " then cut_space s' else s
  | [] => []
  end.

(** skip(value, " "). *)
Definition skip_space (s : str) : option str :=
  match s with
  | [] => Some []
  | c :: _ => if Ascii.eqb c " " then Some (cut_space s) else None
  end.

Definition comma_or_period (c : ascii) : bool := Ascii.eqb c "." || Ascii.eqb c ",".

(** parseNanoseconds(value, nbytes): value[0] is the separator; more than nine
    digits are cut off. *)
Definition parse_nanos (v : str) (nbytes : nat) : option Z :=
  match v with
  | c :: v' =>
      if comma_or_period c then
        let nb := Nat.min nbytes 10 in
        match time_atoi (firstn (nb - 1) v') with
        | Some ns => if ns <? 0 then None else Some (ns * 10 ^ (10 - Z.of_nat nb))
        | None => None
        end
      else None
  | [] => None
  end.

(** The number of leading digits. *)
Fixpoint digit_run (s : str) : nat :=
  match s with
  | c :: s' => if is_digit c then S (digit_run s') else 0%nat
  | [] => 0%nat
  end.

Fixpoint upper_run (s : str) : nat :=
  match s with
  | c :: s' => if is_upper c then S (upper_run s') else 0%nat
  | [] => 0%nat
  end.

(** parseSignedOffset: the number of bytes of "+h.." / "-h.." with value at
    most 23, 0 if there is none. *)
Definition parse_signed_offset (s : str) : nat :=
  match s with
  | c :: s' =>
      if Ascii.eqb c "-" || Ascii.eqb c "+" then
        let n := digit_run s' in
        match parse_udec (firstn n s') with
        | Some x => if 23 <? x then 0%nat else S n
        | None => 0%nat
        end
      else 0%nat
  | [] => 0%nat
  end.

(** parseTimeZone: length of the abbreviation at the start of the value. *)
Definition parse_time_zone (v : str) : option nat :=
  if Nat.ltb (length v) 3 then None
  else if has_prefix (bs "ChST") v || has_prefix (bs "MeST") v then Some 4%nat
  else if has_prefix (bs "GMT") v then Some (3 + parse_signed_offset (skipn 3 v))%nat
  else if has_prefix (bs "+") v || has_prefix (bs "-") v then
    match parse_signed_offset v with O => None | n => Some n end
  else
    match upper_run v with
    | 5%nat => if Ascii.eqb (nth 4 v "000"%char) "T" then Some 5%nat else None
    | 4%nat => if Ascii.eqb (nth 3 v "000"%char) "T" || has_prefix (bs "WITA") v
               then Some 4%nat else None
    | 3%nat => Some 3%nat
    | _ => None
    end.

(** One layout element. [next] is the rest of the layout (the seconds element
    looks whether a fraction follows in the layout). *)
Definition parse_chunk (c : chunk) (next : list chunk) (p : pstate) (v : str)
  : option (pstate * str) :=
  match c with
  | CYear =>
      match v with
      | c0 :: _ =>
          if Nat.ltb (length v) 4 || negb (is_digit c0) then None
          else match time_atoi (firstn 4 v) with
               | Some y => Some (mkP y (p_month p) (p_day p) (p_hour p) (p_min p)
                                     (p_sec p) (p_ns p) (p_utc p) (p_off p) (p_name p),
                                 skipn 4 v)
               | None => None
               end
      | [] => None
      end
  | CMonth =>
      match getnum true v with
      | Some (m, v') =>
          if (m <=? 0) || (12 <? m) then None
          else Some (mkP (p_year p) m (p_day p) (p_hour p) (p_min p) (p_sec p)
                         (p_ns p) (p_utc p) (p_off p) (p_name p), v')
      | None => None
      end
  | CDay =>
      match getnum true v with
      | Some (d, v') =>
          Some (mkP (p_year p) (p_month p) d (p_hour p) (p_min p) (p_sec p)
                    (p_ns p) (p_utc p) (p_off p) (p_name p), v')
      | None => None
      end
  | CHour =>
      match getnum false v with
      | Some (h, v') =>
          if (h <? 0) || (24 <=? h) then None
          else Some (mkP (p_year p) (p_month p) (p_day p) h (p_min p) (p_sec p)
                         (p_ns p) (p_utc p) (p_off p) (p_name p), v')
      | None => None
      end
  | CMinute =>
      match getnum true v with
      | Some (m, v') =>
          if (m <? 0) || (60 <=? m) then None
          else Some (mkP (p_year p) (p_month p) (p_day p) (p_hour p) m (p_sec p)
                         (p_ns p) (p_utc p) (p_off p) (p_name p), v')
      | None => None
      end
  | CSecond =>
      match getnum true v with
      | Some (s, v') =>
          if (s <? 0) || (60 <=? s) then None
          else
            let upd ns := mkP (p_year p) (p_month p) (p_day p) (p_hour p) (p_min p) s
                              ns (p_utc p) (p_off p) (p_name p) in
            (* a fraction in the value but not in the layout *)
            match v' with
            | c1 :: c2 :: v2 =>
                if comma_or_period c1 && is_digit c2 then
                  match next with
                  | CFrac3 :: _ => Some (upd (p_ns p), v')
                  | _ =>
                      let n := (2 + digit_run v2)%nat in
                      match parse_nanos v' n with
                      | Some ns => Some (upd ns, skipn n v')
                      | None => None
                      end
                  end
                else Some (upd (p_ns p), v')
            | _ => Some (upd (p_ns p), v')
            end
      | None => None
      end
  | CFrac3 =>
      if Nat.ltb (length v) 4 then None
      else match parse_nanos v 4 with
           | Some ns => Some (mkP (p_year p) (p_month p) (p_day p) (p_hour p) (p_min p)
                                  (p_sec p) ns (p_utc p) (p_off p) (p_name p), skipn 4 v)
           | None => None
           end
  | CSpace =>
      match skip_space v with Some v' => Some (p, v') | None => None end
  | CNumTZ =>
      if Nat.ltb (length v) 5 then None
      else
        match getnum true (firstn 2 (skipn 1 v)), getnum true (firstn 2 (skipn 3 v)) with
        | Some (hr, _), Some (mm, _) =>
            if 24 <? hr then None
            else if 60 <? mm then None
            else
              let o := (hr * 60 + mm) * 60 in
              let upd o := mkP (p_year p) (p_month p) (p_day p) (p_hour p) (p_min p)
                               (p_sec p) (p_ns p) (p_utc p) (Some o) (p_name p) in
              if has_prefix (bs "+") v then Some (upd o, skipn 5 v)
              else if has_prefix (bs "-") v then Some (upd (- o), skipn 5 v)
              else None
        | _, _ => None
        end
  | CTZ =>
      if has_prefix (bs "UTC") v then
        Some (mkP (p_year p) (p_month p) (p_day p) (p_hour p) (p_min p) (p_sec p)
                  (p_ns p) true (p_off p) (p_name p), skipn 3 v)
      else
        match parse_time_zone v with
        | Some n => Some (mkP (p_year p) (p_month p) (p_day p) (p_hour p) (p_min p)
                              (p_sec p) (p_ns p) (p_utc p) (p_off p) (firstn n v),
                          skipn n v)
        | None => None
        end
  end.

Fixpoint parse_chunks (l : list chunk) (p : pstate) (v : str) : option pstate :=
  match l with
  | [] => match v with [] => Some p | _ => None end      (* extra text *)
  | c :: l' =>
      match parse_chunk c l' p v with
      | Some (p', v') => parse_chunks l' p' v'
      | None => None
      end
  end.

(** time.Parse(layout, value). [local] is Local.lookup: the zone in force in the
    process' local time zone at an instant given in seconds since year 1 (an
    oracle: environment). *)
Definition time_parse (local : Z -> str * Z) (l : list chunk) (v : str) : option gotime :=
  match parse_chunks l p_init v with
  | None => None
  | Some p =>
      if (p_day p <? 1) || (days_in (p_month p) (p_year p) <? p_day p) then None
      else
        let at_off off zone := go_date (p_year p) (p_month p) (p_day p) (p_hour p)
                                 (p_min p) (p_sec p) (p_ns p) off zone in
        if p_utc p then Some (at_off 0 (bs "UTC"))
        else match p_off p with
             | Some off =>
                 let t := at_off off (p_name p) in
                 let '(lname, loff) := local (t_ns t / sec_ns) in
                 if (loff =? off) && match p_name p with [] => true | _ => false end
                 then Some (mkTime (t_ns t) off lname)
                 else Some t
             | None =>
                 (* no offset in the layout: cannot happen with the layouts used *)
                 None
             end
  end.

(** ofxDateFormats, types.go:93-99. *)
Definition date_formats : list (list chunk) :=
  [ [CYear; CMonth; CDay; CHour; CMinute; CSecond; CFrac3];
    [CYear; CMonth; CDay; CHour; CMinute; CSecond];
    [CYear; CMonth; CDay; CHour; CMinute];
    [CYear; CMonth; CDay; CHour];
    [CYear; CMonth; CDay] ].
