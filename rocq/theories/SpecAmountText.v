(** Specification of all texts that are accepted as amounts and of what they
    mean. More than the decimal notation of the OFX standard is accepted. *)
From Coq Require Import QArith.
From Verif Require Import GoStr SpecStr SpecNum.
Local Open Scope Z_scope.

(** [c] is a digit of value [d] in base [b], in small or capital letters. *)
Definition digit_in (b : Z) (c : ascii) (d : Z) : Prop :=
  0 <= d < b /\
  exists k, d = Z.of_nat k /\
    (nth_error (bs "0123456789abcdef") k = Some c \/ nth_error (bs "0123456789ABCDEF") k = Some c).

(** The positional value of a possibly empty string of digits in base [b]. *)
Inductive based (b : Z) : str -> Z -> Prop :=
| based_nil : based b [] 0
| based_snoc : forall s v c d, based b s v -> digit_in b c d -> based b (s ++ [c]) (b * v + d).

(** [s] is a run of characters [ds] with single underscores between some of them. *)
Inductive grouped : str -> str -> Prop :=
| grouped_all : forall ds, ds <> [] -> ~ In "_"%char ds -> grouped ds ds
| grouped_more : forall ds s es, ds <> [] -> ~ In "_"%char ds -> grouped s es ->
    grouped (ds ++ "_"%char :: s) (ds ++ es).

Definition maybe_grouped (s ds : str) : Prop := grouped s ds \/ (s = [] /\ ds = []).

(** After a prefix that names the base an underscore may come first. *)
Definition after_prefix (s ds : str) : Prop :=
  grouped s ds \/ exists t, s = "_"%char :: t /\ grouped t ds.

Inductive base_prefix : Z -> str -> Prop :=
| prefix_b : base_prefix 2 (bs "0b")
| prefix_B : base_prefix 2 (bs "0B")
| prefix_o : base_prefix 8 (bs "0o")
| prefix_O : base_prefix 8 (bs "0O")
| prefix_x : base_prefix 16 (bs "0x")
| prefix_X : base_prefix 16 (bs "0X").

(** The numerator and the denominator of a fraction: a leading zero means octal. *)
Inductive whole_text : str -> Z -> Prop :=
| whole_zero : whole_text (bs "0") 0
| whole_decimal : forall s ds v, grouped s ds -> hd_error s <> Some "0"%char -> based 10 ds v -> whole_text s v
| whole_octal : forall s ds v, after_prefix s ds -> based 8 ds v -> whole_text ("0"%char :: s) v
| whole_prefixed : forall b p s ds v, base_prefix b p -> after_prefix s ds -> based b ds v ->
    whole_text (p ++ s) v.

(** The digits before and after a radix point; a leading zero means nothing.
    [mantissa_text s b n k]: [s] is in base [b], without the point it denotes
    [n], and [k] digits are behind the point. *)
Inductive mantissa_text : str -> Z -> Z -> nat -> Prop :=
| mantissa_decimal : forall i ip n, grouped i ip -> based 10 ip n -> mantissa_text i 10 n 0
| mantissa_decimal_point : forall i f ip fp n, maybe_grouped i ip -> maybe_grouped f fp -> ip ++ fp <> [] ->
    based 10 (ip ++ fp) n -> mantissa_text (i ++ "."%char :: f) 10 n (length fp)
| mantissa_prefixed : forall b p i ip n, base_prefix b p -> after_prefix i ip -> based b ip n ->
    mantissa_text (p ++ i) b n 0
| mantissa_prefixed_point : forall b p i f ip fp n, base_prefix b p ->
    after_prefix i ip \/ (i = [] /\ ip = []) -> maybe_grouped f fp -> ip ++ fp <> [] ->
    based b (ip ++ fp) n -> mantissa_text (p ++ i ++ "."%char :: f) b n (length fp).

(** A power of ten or of two that follows a number in base [b]. The letter e
    is a digit in base 16. *)
Definition exponent_value (sign : str) (n e : Z) : Prop :=
  ((sign = [] \/ sign = bs "+") /\ e = n) \/ (sign = bs "-" /\ e = - n).

Inductive exponent_text (b : Z) : str -> Z -> Z -> Prop :=
| exponent_none : exponent_text b [] 10 0
| exponent_ten : forall c sign s ds n e, c = "e"%char \/ c = "E"%char -> b <> 16 ->
    grouped s ds -> digits ds n -> exponent_value sign n e -> int64_range e ->
    exponent_text b (c :: sign ++ s) 10 e
| exponent_two : forall c sign s ds n e, c = "p"%char \/ c = "P"%char ->
    grouped s ds -> digits ds n -> exponent_value sign n e -> int64_range e ->
    exponent_text b (c :: sign ++ s) 2 e.

(** How often two (for ten: two and five) divides the base. *)
Definition twos_in (b : Z) : Z := if b =? 16 then 4 else if b =? 8 then 3 else 1.
Definition fives_in (b : Z) : Z := if b =? 10 then 1 else 0.

(** math/big gives up if the number is so large or so small that more than a
    million fives or more than ten million twos would have to be multiplied. *)
Definition in_reach (b eb : Z) (k : nat) (e : Z) : Prop :=
  Z.abs (fives_in eb * e - fives_in b * Z.of_nat k) <= 1000000 /\
  Z.abs (e - twos_in b * Z.of_nat k) <= 10000000.

Definition signed (sign : str) (q x : Q) : Prop :=
  ((sign = [] \/ sign = bs "+") /\ (x == q)%Q) \/ (sign = bs "-" /\ (x == - q)%Q).

(** [s] denotes the rational number [x]: a fraction, or a number with an
    optional exponent. *)
Inductive number_text : str -> Q -> Prop :=
| number_fraction : forall sign sa sb a b x, whole_text sa a -> whole_text sb b -> b <> 0 ->
    signed sign (inject_Z a / inject_Z b)%Q x ->
    number_text (sign ++ sa ++ "/"%char :: sb) x
| number_zero : forall sign sm se b k eb e x, mantissa_text sm b 0 k -> exponent_text b se eb e ->
    signed sign 0%Q x -> number_text (sign ++ sm ++ se) x
| number_scaled : forall sign sm se b n k eb e x, mantissa_text sm b n k -> exponent_text b se eb e ->
    in_reach b eb k e ->
    signed sign (inject_Z n * inject_Z b ^ (- Z.of_nat k) * inject_Z eb ^ e)%Q x ->
    number_text (sign ++ sm ++ se) x.

(** A decimal comma is read as a point; only the first comma is looked at. *)
Definition comma_as_point (s t : str) : Prop :=
  (~ In ","%char s /\ t = s) \/
  exists a r, ~ In ","%char a /\ s = a ++ ","%char :: r /\ t = a ++ "."%char :: r.

(** The text of an amount: white space around it does not count. *)
Definition amount_text (s : str) (x : Q) : Prop :=
  exists t u, trims_to s t /\ comma_as_point t u /\ number_text u x.
