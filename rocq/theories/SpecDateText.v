(** Specification of all texts that are accepted as dates and of what they mean.
    More than the notation of the OFX standard (SpecDate.v) is accepted. *)
From Verif Require Import GoStr SpecStr SpecNum SpecDate GoTime.
Local Open Scope Z_scope.

Definition decimal_mark (c : ascii) : Prop := c = "."%char \/ c = ","%char.

(** A fraction of a second and its nanoseconds: any number of digits, of which
    nine count. Besides, a sign may take the place of the first of three digits;
    the minus only if the other two are zero. *)
Inductive fraction : Z -> str -> Prop :=
| fraction_none : fraction 0 []
| fraction_digits : forall sep hd tl v w, decimal_mark sep ->
    digits hd v -> digits tl w -> hd <> [] -> (length hd <= 9)%nat -> (tl = [] \/ length hd = 9%nat) ->
    fraction (v * 10 ^ (9 - Z.of_nat (length hd))) (sep :: hd ++ tl)
| fraction_plus : forall sep v s, decimal_mark sep -> num 2 v s -> fraction (v * 1000000) (sep :: "+"%char :: s)
| fraction_minus : forall sep, decimal_mark sep -> fraction 0 (sep :: bs "-00").

(** The texts of a civil time and of nanoseconds: a day; with an hour of one or
    two digits; with a minute; with a second and a fraction. *)
Inductive clock_text : civil -> Z -> str -> Prop :=
| clock_day : forall y mo d sy smo sd,
    num 4 y sy -> num 2 mo smo -> num 2 d sd ->
    clock_text (mkCivil y mo d 0 0 0 0) 0 (sy ++ smo ++ sd)
| clock_hour : forall y mo d h sy smo sd sh,
    num 4 y sy -> num 2 mo smo -> num 2 d sd -> num 1 h sh \/ num 2 h sh ->
    clock_text (mkCivil y mo d h 0 0 0) 0 (sy ++ smo ++ sd ++ sh)
| clock_minute : forall y mo d h mi sy smo sd sh smi,
    num 4 y sy -> num 2 mo smo -> num 2 d sd -> num 2 h sh -> num 2 mi smi ->
    clock_text (mkCivil y mo d h mi 0 0) 0 (sy ++ smo ++ sd ++ sh ++ smi)
| clock_second : forall y mo d h mi s ns sy smo sd sh smi ss sf,
    num 4 y sy -> num 2 mo smo -> num 2 d sd -> num 2 h sh -> num 2 mi smi -> num 2 s ss ->
    fraction ns sf ->
    clock_text (mkCivil y mo d h mi s 0) ns (sy ++ smo ++ sd ++ sh ++ smi ++ ss ++ sf).

(** A zone: hours, hundredths of an hour (in whole minutes, rounded down), a name
    (empty if there is none). *)
Definition minutes_text (m : Z) (s : str) : Prop :=
  (m = 0 /\ s = []) \/ (exists f sf, num 2 f sf /\ m = f * 60 / 100 /\ s = "."%char :: sf).

Definition name_text (n s : str) : Prop :=
  (n = [] /\ s = []) \/ (n <> [] /\ upper_letters n /\ s = ":"%char :: n).

Definition zone_notation (h m : Z) (n s : str) : Prop :=
  exists sh sm sn, integer sh h /\ -24 <= h <= 24 /\ minutes_text m sm /\ name_text n sn /\ s = sh ++ sm ++ sn.

(** The offset in seconds: the minutes go in the direction of the hours. *)
Definition zone_offset (h m : Z) : Z := if h <? 0 then h * 3600 - m * 60 else h * 3600 + m * 60.

(** The zone of a date: its offset and its name, where [local] tells name and
    offset of the local time zone at an instant in seconds. [i off] is the
    instant if the offset is [off]. *)
Inductive zone_value (local : Z -> str * Z) (i : Z -> Z) : str -> gotime -> Prop :=
| zone_named : forall h m n s, zone_notation h m n s -> n <> [] -> n <> bs "UTC" -> abbreviation 0 n ->
    zone_value local i s (mkTime (i (zone_offset h m)) (zone_offset h m) n)
| zone_utc : forall h m s, zone_notation h m (bs "UTC") s ->
    zone_value local i s (mkTime (i 0) 0 (bs "UTC"))
| zone_gmt : forall s, zone_notation 0 0 [] s ->
    zone_value local i s (mkTime (i 0) 0 (bs "GMT"))
| zone_unnamed : forall h m s lname loff, zone_notation h m [] s -> ~ (h = 0 /\ m = 0) ->
    local (i (zone_offset h m) / 1000000000) = (lname, loff) ->
    zone_value local i s (mkTime (i (zone_offset h m)) (zone_offset h m)
                            (if loff =? zone_offset h m then lname else [])).

(** A date without surrounding white space: a clock text, spaces and a zone in
    brackets whose closing bracket has been removed. *)
Inductive date_value (local : Z -> str * Z) : str -> gotime -> Prop :=
| value_plain : forall c ns t, clock_text c ns t -> civil_ok c ->
    date_value local t (mkTime (instant c 0 + ns) 0 (bs "GMT"))
| value_zone : forall c ns t sp z x, clock_text c ns t -> civil_ok c -> Forall (eq " "%char) sp ->
    zone_value local (fun off => instant c off + ns) z x ->
    date_value local (t ++ sp ++ "["%char :: z) x.

(** The text up to the first closing bracket, if there is one. *)
Definition up_to_bracket (s u : str) : Prop :=
  ~ In "]"%char u /\ (s = u \/ exists r, s = u ++ "]"%char :: r).
