(** Specification of the time that a date with freely chosen fields denotes. *)
From Verif Require Import GoStr SpecDate NewDate.
Local Open Scope Z_scope.

(** The reading of a clock, in seconds since 0001-01-01 00:00:00 of that clock:
    months may run over into years, and days, hours, minutes, seconds and
    nanoseconds simply add up. *)
Definition month_start (y mo : Z) : Z := day_number (y + (mo - 1) / 12) ((mo - 1) mod 12 + 1) 1.

Definition clock (y mo d h mi s ns : Z) : Z :=
  month_start y mo * 86400 + (d - 1) * 86400 + h * 3600 + mi * 60 + s + ns / 1000000000.

(** An instant belongs to a period of a location. *)
Definition during (p : period) (t : Z) : Prop :=
  (forall a, zp_start p = Some a -> a <= t) /\ (forall b, zp_end p = Some b -> t < b).

(** A location with offsets of at most [m] seconds that keeps each of them for
    more than [2 m] seconds: a day and a half for the largest offsets in use. *)
Definition proper_location (loc : location) (m : Z) : Prop :=
  (forall t, during (loc t) t) /\
  (forall t u, during (loc t) u -> loc u = loc t) /\
  (forall t, - m <= zp_off (loc t) <= m) /\
  (forall t a b, zp_start (loc t) = Some a -> zp_end (loc t) = Some b -> 2 * m < b - a).

(** At some instant the clocks of the location show [w]. *)
Definition shown (loc : location) (w : Z) : Prop := exists t, t + zp_off (loc t) = w.
