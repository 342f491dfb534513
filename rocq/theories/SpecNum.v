(** Specification of decimal notation, independent of the model. *)
From Coq Require Import QArith.
From Verif Require Import GoStr.
Local Open Scope Z_scope.

(** [c] is the decimal digit with value [d]. *)
Definition digit (c : ascii) (d : Z) : Prop :=
  exists k, nth_error (bs "0123456789") k = Some c /\ d = Z.of_nat k.

(** [s] is a possibly empty string of decimal digits with positional value [v]. *)
Inductive digits : str -> Z -> Prop :=
| digits_nil : digits [] 0
| digits_snoc : forall s v c d, digits s v -> digit c d -> digits (s ++ [c]) (10 * v + d).

(** [s] is an optionally signed, non-empty string of digits denoting [v]. *)
Definition integer (s : str) (v : Z) : Prop :=
  exists sign body n, s = sign ++ body /\ body <> [] /\ digits body n /\
    ((sign = [] /\ v = n) \/ (sign = bs "+" /\ v = n) \/ (sign = bs "-" /\ v = - n)).

(** [s] is an optionally signed decimal number with an optional fractional part
    of [nf] digits after the separator [sep], denoting the rational [q]; there
    is at least one digit. *)
Definition decimal (sep : ascii) (nf : nat) (s : str) (q : Q) : Prop :=
  exists sign ip fp n,
    (s = sign ++ ip /\ fp = [] \/ s = sign ++ ip ++ sep :: fp) /\
    ip ++ fp <> [] /\ length fp = nf /\ digits (ip ++ fp) n /\
    (((sign = [] \/ sign = bs "+") /\ (q == inject_Z n / inject_Z (10 ^ Z.of_nat nf))%Q) \/
     (sign = bs "-" /\ (q == - (inject_Z n / inject_Z (10 ^ Z.of_nat nf)))%Q)).

(** The 64-bit two's complement range. *)
Definition int64_range (v : Z) : Prop := - 2 ^ 63 <= v < 2 ^ 63.
