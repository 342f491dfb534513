(** Specification of civil dates, of the OFX date notation and of the instant a
    civil time denotes, independent of the model. *)
From Verif Require Import GoStr SpecNum.
Local Open Scope Z_scope.

(** ** Gregorian calendar *)

Definition leap (y : Z) : Prop :=
  Z.divide 4 y /\ (~ Z.divide 100 y \/ Z.divide 400 y).

Definition leapb (y : Z) : bool :=
  (y mod 4 =? 0) && (negb (y mod 100 =? 0) || (y mod 400 =? 0)).

Definition month_len (y m : Z) : Z :=
  if m =? 2 then (if leapb y then 29 else 28)
  else if (m =? 4) || (m =? 6) || (m =? 9) || (m =? 11) then 30 else 31.

Definition year_len (y : Z) : Z := if leapb y then 366 else 365.

(** Number of days of the months before month [m] (1-based) of year [y]. *)
Fixpoint months_days (y : Z) (m : nat) : Z :=
  match m with
  | O | S O => 0
  | S m' => months_days y m' + month_len y (Z.of_nat m')
  end.

(** Number of days of the years 0 .. n-1. *)
Fixpoint years_days (n : nat) : Z :=
  match n with
  | O => 0
  | S n' => years_days n' + year_len (Z.of_nat n')
  end.

(** Days from 0001-01-01 to the given date of a year >= 0. *)
Definition day_number (y m d : Z) : Z :=
  years_days (Z.to_nat y) - 366 + months_days y (Z.to_nat m) + (d - 1).

(** A civil time: year, month, day, hour, minute, second, millisecond. *)
Record civil := mkCivil {
  cy : Z; cmo : Z; cd : Z; ch : Z; cmi : Z; cs : Z; cms : Z
}.

Definition civil_ok (c : civil) : Prop :=
  0 <= cy c <= 9999 /\ 1 <= cmo c <= 12 /\ 1 <= cd c <= month_len (cy c) (cmo c) /\
  0 <= ch c <= 23 /\ 0 <= cmi c <= 59 /\ 0 <= cs c <= 59 /\ 0 <= cms c <= 999.

(** The instant of a civil time at an offset east of UTC in seconds, in
    nanoseconds since 0001-01-01T00:00:00Z. *)
Definition instant (c : civil) (off : Z) : Z :=
  (day_number (cy c) (cmo c) (cd c) * 86400 + ch c * 3600 + cmi c * 60 + cs c - off)
    * 1000000000 + cms c * 1000000.

(** ** Notation *)

(** [s] is the [w]-digit notation of [v]. *)
Definition num (w : nat) (v : Z) (s : str) : Prop := length s = w /\ digits s v.

(** The five lengths of OFX date texts; the missing fields are zero. *)
Inductive date_text : civil -> str -> Prop :=
| text_day : forall y mo d sy smo sd,
    num 4 y sy -> num 2 mo smo -> num 2 d sd ->
    date_text (mkCivil y mo d 0 0 0 0) (sy ++ smo ++ sd)
| text_hour : forall y mo d h sy smo sd sh,
    num 4 y sy -> num 2 mo smo -> num 2 d sd -> num 2 h sh ->
    date_text (mkCivil y mo d h 0 0 0) (sy ++ smo ++ sd ++ sh)
| text_minute : forall y mo d h mi sy smo sd sh smi,
    num 4 y sy -> num 2 mo smo -> num 2 d sd -> num 2 h sh -> num 2 mi smi ->
    date_text (mkCivil y mo d h mi 0 0) (sy ++ smo ++ sd ++ sh ++ smi)
| text_second : forall y mo d h mi s sy smo sd sh smi ss,
    num 4 y sy -> num 2 mo smo -> num 2 d sd -> num 2 h sh -> num 2 mi smi -> num 2 s ss ->
    date_text (mkCivil y mo d h mi s 0) (sy ++ smo ++ sd ++ sh ++ smi ++ ss)
| text_milli : forall y mo d h mi s ms sy smo sd sh smi ss sms,
    num 4 y sy -> num 2 mo smo -> num 2 d sd -> num 2 h sh -> num 2 mi smi -> num 2 s ss ->
    num 3 ms sms ->
    date_text (mkCivil y mo d h mi s ms)
              (sy ++ smo ++ sd ++ sh ++ smi ++ ss ++ "."%char :: sms).

(** Upper case ASCII letters. *)
Definition upper_letters (s : str) : Prop :=
  Forall (fun c => (65 <= code c <= 90)%N) s.

(** The zone abbreviations that survive time.Parse at offset [off]: UTC only
    at offset 0; three letters; four letters ending in T, or WITA; five letters
    ending in T; the longer ones must not start with UTC or GMT. *)
Definition abbreviation (off : Z) (n : str) : Prop :=
  upper_letters n /\
  (n = bs "UTC" /\ off = 0 \/
   length n = 3%nat /\ n <> bs "UTC" \/
   ((length n = 4%nat /\ (exists p, n = p ++ bs "T") \/ n = bs "WITA" \/
     length n = 5%nat /\ (exists p, n = p ++ bs "T")) /\
    (forall r, n <> bs "UTC" ++ r) /\ (forall r, n <> bs "GMT" ++ r))).

(** Zone notation [h], [h.ff], with an optional [:NAME]: [off] is the offset in
    seconds it denotes when the sign of the hours applies to the whole. The
    notation -0.ff is left out (see C10). *)
Inductive zone_text : Z -> str -> str -> Prop :=
| zone_whole : forall h sh n, integer sh h -> -24 <= h <= 24 ->
    zone_text (h * 3600) n (sh ++ match n with [] => [] | _ => ":"%char :: n end)
| zone_frac : forall h f sh sf n, integer sh h -> -24 <= h <= 24 -> num 2 f sf ->
    (forall r, sh = "-"%char :: r -> h < 0) ->
    zone_text (h * 3600 + (if h <? 0 then - (f * 60 / 100 * 60) else f * 60 / 100 * 60)) n
              (sh ++ "."%char :: sf ++ match n with [] => [] | _ => ":"%char :: n end).
