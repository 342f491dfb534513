(** Model of strconv.ParseUint(s, 0, 64), which package flag uses for -delay
    (cmd/ofx/detect_settings.go:27), after the strconv sources of Go 1.17 and
    later. *)
From Verif Require Import GoStr.
Local Open Scope Z_scope.

(** lower: c | ('x' - 'X'). *)
Definition lower_bit (c : ascii) : ascii := chr (N.lor (code c) 32).

(** The value of a digit or letter in the loop of ParseUint. *)
Definition uint_digit (c : ascii) : option Z :=
  let l := Z.of_N (code (lower_bit c)) in
  if is_digit c then Some (Z.of_N (code c) - 48)
  else if (97 <=? l) && (l <=? 122) then Some (l - 97 + 10)
  else None.

(** The loop: the number and whether there are underscores. *)
Fixpoint uint_loop (base n : Z) (underscores : bool) (s : str) : option (Z * bool) :=
  match s with
  | [] => Some (n, underscores)
  | c :: s' =>
      if Ascii.eqb c "_" then uint_loop base n true s'
      else match uint_digit c with
           | None => None
           | Some d =>
               if base <=? d then None
               else if (2 ^ 64 - 1) / base + 1 <=? n then None
               else if 2 ^ 64 - 1 <? n * base + d then None
               else uint_loop base (n * base + d) underscores s'
           end
  end.

(** underscoreOK: what was seen last is the beginning, a digit, an underscore or
    something else. *)
Inductive seen := SawStart | SawDigit | SawUnderscore | SawOther.

Fixpoint underscore_loop (hex : bool) (saw : seen) (s : str) : bool :=
  match s with
  | [] => match saw with SawUnderscore => false | _ => true end
  | c :: s' =>
      let l := code (lower_bit c) in
      if is_digit c || (hex && ((97 <=? l)%N && (l <=? 102)%N)) then underscore_loop hex SawDigit s'
      else if Ascii.eqb c "_" then match saw with SawDigit => underscore_loop hex SawUnderscore s' | _ => false end
      else match saw with SawUnderscore => false | _ => underscore_loop hex SawOther s' end
  end.

Definition underscore_ok (s0 : str) : bool :=
  let s := match s0 with
           | c :: s' => if Ascii.eqb c "-" || Ascii.eqb c "+" then s' else s0
           | [] => s0
           end in
  match s with
  | c :: d :: s' =>
      let l := lower_bit d in
      if Ascii.eqb c "0" && (Ascii.eqb l "b" || Ascii.eqb l "o" || Ascii.eqb l "x")
      then underscore_loop (Ascii.eqb l "x") SawDigit s'
      else underscore_loop false SawStart s
  | _ => underscore_loop false SawStart s
  end.

(** The base and the digits: a prefix counts only if something follows. *)
Definition uint_base (s : str) : Z * str :=
  match s with
  | c :: s1 =>
      if Ascii.eqb c "0" then
        match s1 with
        | d :: _ :: _ =>
            let l := lower_bit d in
            if Ascii.eqb l "b" then (2, tl s1)
            else if Ascii.eqb l "o" then (8, tl s1)
            else if Ascii.eqb l "x" then (16, tl s1)
            else (8, s1)
        | _ => (8, s1)
        end
      else (10, s)
  | [] => (10, s)
  end.

Definition parse_uint64 (s : str) : option N :=
  match s with
  | [] => None
  | _ =>
      let '(base, digits) := uint_base s in
      match uint_loop base 0 false digits with
      | None => None
      | Some (n, underscores) => if underscores && negb (underscore_ok s) then None else Some (Z.to_N n)
      end
  end.
