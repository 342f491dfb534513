(** Model of NewDate and NewDateGMT, types.go:201-212: time.Date with
    normalisation of its fields, in any location. Fields are unbounded
    integers; Go's wrap around at 64 bits. *)
From Verif Require Import GoStr GoTime.
Local Open Scope Z_scope.

(** What Location.lookup tells about an instant: name and offset of the zone
    in use and from when until when it is in use; [None] stands for the ends of
    time (alpha and omega). Instants are seconds since 0001-01-01T00:00:00Z. *)
Record period := mkPeriod {
  zp_name : str;
  zp_off : Z;
  zp_start : option Z;
  zp_end : option Z
}.

Definition location := Z -> period.

(** time.FixedZone. *)
Definition fixed_zone (name : str) (off : Z) : location := fun _ => mkPeriod name off None None.

(** types.go:206. *)
Definition gmt : location := fixed_zone (bs "GMT") 0.

(** time.norm: the part of [lo] outside 0 .. base-1 is carried to [hi]. *)
Definition norm (hi lo base : Z) : Z * Z :=
  let '(hi, lo) := if lo <? 0 then
                     let n := Z.quot (- lo - 1) base + 1 in (hi - n, lo + n * base)
                   else (hi, lo) in
  if base <=? lo then let n := Z.quot lo base in (hi + n, lo - n * base) else (hi, lo).

(** utc < start || utc >= end. *)
Definition outside (p : period) (utc : Z) : bool :=
  match zp_start p with Some a => utc <? a | None => false end ||
  match zp_end p with Some b => b <=? utc | None => false end.

(** The zone offset part of time.Date. *)
Definition resolve (loc : location) (unix : Z) : Z :=
  let p := loc unix in
  if zp_off p =? 0 then unix
  else
    let utc := unix - zp_off p in
    let off := if outside p utc then zp_off (loc utc) else zp_off p in
    unix - off.

(** time.Date. *)
Definition time_date (year month day hour min sec nsec : Z) (loc : location) : gotime :=
  let '(year, m) := norm year (month - 1) 12 in
  let '(sec, nsec) := norm sec nsec 1000000000 in
  let '(min, sec) := norm min sec 60 in
  let '(hour, min) := norm hour min 60 in
  let '(day, hour) := norm day hour 24 in
  let unix := days_of_civil year (m + 1) day * 86400 + (hour * 3600 + min * 60 + sec) in
  let t := resolve loc unix in
  mkTime (t * 1000000000 + nsec) (zp_off (loc t)) (zp_name (loc t)).

(** NewDate, types.go:201-204. *)
Definition new_date (year month day hour min sec nsec : Z) (loc : location) : gotime :=
  time_date year month day hour min sec nsec loc.

(** NewDateGMT, types.go:208-212. *)
Definition new_date_gmt (year month day hour min sec nsec : Z) : gotime :=
  time_date year month day hour min sec nsec gmt.
