(** The names of time zones (C97). *)
From Verif Require Import GoStr.

(** A character of the names in the database of time zones: a letter, a digit, a
    plus or a minus sign. *)
Definition zone_name_char (c : ascii) : Prop :=
  (65 <= code c <= 90 \/ 97 <= code c <= 122 \/ 48 <= code c <= 57 \/ code c = 43 \/ code c = 45)%N.
