(** Number/text conversions: model of the parts of [strconv] and [fmt] that
    /repo uses. *)
From Verif Require Import GoStr.
Local Open Scope Z_scope.

(** The character of a decimal digit. *)
Definition digit_chr (d : Z) : ascii := chr (Z.to_N (48 + d)).

(** Decimal digits of a natural number, without leading zeros ("0" for 0). The
    fuel is the number of bits plus one, always enough (see GoNumFacts). *)
Fixpoint dec_aux (fuel : nat) (n : Z) (acc : str) : str :=
  match fuel with
  | O => acc
  | S f => if n <? 10 then digit_chr n :: acc
           else dec_aux f (n / 10) (digit_chr (n mod 10) :: acc)
  end.

Definition fmt_nat (n : Z) : str := dec_aux (S (Z.to_nat (Z.log2 n))) n [].

(** %d *)
Definition fmt_d (n : Z) : str :=
  if n <? 0 then "-"%char :: fmt_nat (- n) else fmt_nat n.

(** %+d *)
Definition fmt_plus_d (n : Z) : str :=
  if n <? 0 then "-"%char :: fmt_nat (- n) else "+"%char :: fmt_nat n.

(** Left padding with zeros to width [w]. *)
Definition pad0 (w : nat) (s : str) : str :=
  repeat "0"%char (w - length s) ++ s.

(** %02d for non-negative numbers. *)
Definition fmt_02d (n : Z) : str := pad0 2 (fmt_nat n).

(** %+03d: the sign counts in the width. *)
Definition fmt_plus_03d (n : Z) : str :=
  if n <? 0 then "-"%char :: pad0 2 (fmt_nat (- n))
  else "+"%char :: pad0 2 (fmt_nat n).

(** The value of a string of digits; [None] if some character is not a digit.
    The accumulator starts at 0. *)
Fixpoint digits_acc (acc : Z) (s : str) : option Z :=
  match s with
  | [] => Some acc
  | c :: s' => if is_digit c then digits_acc (10 * acc + digit_val c) s' else None
  end.

(** Unsigned decimal number: at least one digit. *)
Definition parse_udec (s : str) : option Z :=
  match s with [] => None | _ => digits_acc 0 s end.

(** strconv.ParseUint(s, 10, 64): digits with the overflow checks of the Go
    code: [n >= cutoff] (that is n*10 overflows) and [n*10+d < n*10] or
    [> maxVal]. *)
Definition max_u64 : Z := 18446744073709551615.
Definition cutoff10 : Z := 1844674407370955162.   (* max_u64/10 + 1 *)

Fixpoint parse_uint_loop (n : Z) (s : str) : option Z :=
  match s with
  | [] => Some n
  | c :: s' =>
      if is_digit c then
        if cutoff10 <=? n then None
        else let n1 := n * 10 + digit_val c in
             if max_u64 <? n1 then None else parse_uint_loop n1 s'
      else None
  end.

Definition parse_uint (s : str) : option Z :=
  match s with [] => None | _ => parse_uint_loop 0 s end.

(** strconv.ParseInt(s, 10, 64); also strconv.Atoi on a 64-bit platform. *)
Definition parse_int (s : str) : option Z :=
  match s with
  | [] => None
  | c :: s' =>
      let neg := Ascii.eqb c "-" in
      let body := if neg || Ascii.eqb c "+" then s' else s in
      match parse_uint body with
      | None => None
      | Some un =>
          if negb neg && (9223372036854775808 <=? un) then None
          else if neg && (9223372036854775808 <? un) then None
          else Some (if neg then - un else un)
      end
  end.

(** %x of a byte in a byte slice: two lower-case hexadecimal digits. *)
Definition hex_digit (n : N) : ascii :=
  if (n <? 10)%N then chr (48 + n) else chr (87 + n).

Definition hex_byte (c : ascii) : str :=
  [hex_digit (code c / 16); hex_digit (code c mod 16)].

Definition fmt_hex (s : str) : str := flat_map hex_byte s.
