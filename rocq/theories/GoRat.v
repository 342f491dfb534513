(** Model of math/big.Rat: SetString, FloatString, Cmp and IsInt, the
    operations types.go:47-86 and common.go:366 use.

    A Rat is a rational number in lowest terms with positive denominator, here
    Coq's [Q] kept reduced by [Qred] (math/big calls [norm] after every
    operation). Modelled after the math/big sources of Go 1.17 and later. *)
From Coq Require Import QArith.
From Verif Require Import GoStr GoNum.
Local Open Scope Z_scope.

(** The digit value of a character for bases up to 36 (nat.scan); 255 stands
    for "not a digit" (MaxBase + 1 in the source). *)
Definition alnum_val (c : ascii) : Z :=
  if is_digit c then digit_val c
  else if is_lower c then Z.of_N (code c) - 87
  else if is_upper c then Z.of_N (code c) - 55
  else 255.

(** What the previous character was, for the separator rule of nat.scan:
    ['.'] (anything else), ['0'] (a digit) or ['_']. *)
Inductive prev_kind := PrevOther | PrevDigit | PrevSep.

Definition is_prev_digit (p : prev_kind) : bool :=
  match p with PrevDigit => true | _ => false end.
Definition is_prev_sep (p : prev_kind) : bool :=
  match p with PrevSep => true | _ => false end.

(** State of the conversion loop of nat.scan. *)
Record scan_st := mkScan {
  sc_acc : Z;            (* value so far *)
  sc_count : Z;          (* digits so far *)
  sc_dp : option Z;      (* count at the radix point *)
  sc_prev : prev_kind;
  sc_inval : bool;       (* misplaced separator seen *)
  sc_rest : str          (* unread input *)
}.

(** The "convert string" loop of nat.scan, called with base argument 0. *)
Fixpoint scan_loop (b : Z) (fracOk : bool) (st : scan_st) (s : str) : scan_st :=
  let stop := mkScan (sc_acc st) (sc_count st) (sc_dp st) (sc_prev st)
                     (sc_inval st) s in
  match s with
  | [] => stop
  | c :: s' =>
      if Ascii.eqb c "." && fracOk then
        scan_loop b false
          (mkScan (sc_acc st) (sc_count st) (Some (sc_count st)) PrevOther
                  (sc_inval st || is_prev_sep (sc_prev st)) []) s'
      else if Ascii.eqb c "_" then
        scan_loop b fracOk
          (mkScan (sc_acc st) (sc_count st) (sc_dp st) PrevSep
                  (sc_inval st || negb (is_prev_digit (sc_prev st))) []) s'
      else
        let d := alnum_val c in
        if b <=? d then stop
        else scan_loop b fracOk
               (mkScan (sc_acc st * b + d) (sc_count st + 1) (sc_dp st)
                       PrevDigit (sc_inval st) []) s'
  end.

(** nat.scan(r, 0, fracOk): value, base, count (minus the number of fractional
    digits if there is a radix point) and the unread rest. *)
Definition nat_scan (fracOk : bool) (s : str) : option (Z * Z * Z * str) :=
  let start b prefix count prev s0 :=
    let st := scan_loop b fracOk (mkScan 0 count None prev false []) s0 in
    let inval := sc_inval st || is_prev_sep (sc_prev st) in
    if sc_count st =? 0 then
      (* only the octal prefix 0, read as decimal 0; or no digits at all *)
      if prefix : bool then (if inval then None else Some (0, 10, 1, sc_rest st))
      else None
    else if inval then None
    else Some (sc_acc st, b,
               match sc_dp st with
               | Some dp => dp - sc_count st
               | None => sc_count st
               end, sc_rest st) in
  match s with
  | c :: s1 =>
      if Ascii.eqb c "0" then
        match s1 with
        | [] => start 10 false 1 PrevDigit []
        | d :: s2 =>
            if Ascii.eqb d "b" || Ascii.eqb d "B" then start 2 false 0 PrevDigit s2
            else if Ascii.eqb d "o" || Ascii.eqb d "O" then start 8 false 0 PrevDigit s2
            else if Ascii.eqb d "x" || Ascii.eqb d "X" then start 16 false 0 PrevDigit s2
            else if fracOk then start 10 false 1 PrevDigit s1
            else start 8 true 0 PrevDigit s1
        end
      else start 10 false 0 PrevOther s
  | [] => None
  end.

(** scanSign: fails on empty input. *)
Definition scan_sign (s : str) : option (bool * str) :=
  match s with
  | [] => None
  | c :: s' => if Ascii.eqb c "-" then Some (true, s')
               else if Ascii.eqb c "+" then Some (false, s')
               else Some (false, s)
  end.

(** The digit loop of scanExponent: digits, whether a separator is misplaced,
    rest. *)
Fixpoint exp_loop (digits : str) (prev : prev_kind) (inval : bool) (s : str)
  : str * bool * str :=
  match s with
  | [] => (digits, inval || is_prev_sep prev, [])
  | c :: s' =>
      if is_digit c then exp_loop (digits ++ [c]) PrevDigit inval s'
      else if Ascii.eqb c "_" then
        exp_loop digits PrevSep (inval || negb (is_prev_digit prev)) s'
      else (digits, inval || is_prev_sep prev, s)
  end.

(** scanExponent(r, true, true): exponent, its base and the rest. *)
Definition scan_exponent (s : str) : option (Z * Z * str) :=
  match s with
  | [] => Some (0, 10, [])
  | c :: s1 =>
      let go base :=
        let '(neg, s2) := match s1 with
                          | d :: s2 => if Ascii.eqb d "-" then (true, s2)
                                       else if Ascii.eqb d "+" then (false, s2)
                                       else (false, s1)
                          | [] => (false, s1)
                          end in
        let '(digits, inval, rest) := exp_loop [] PrevOther false s2 in
        match digits with
        | [] => None
        | _ => match parse_int (if neg : bool then "-"%char :: digits else digits) with
               | None => None
               | Some e => if inval : bool then None else Some (e, base, rest)
               end
        end in
      if Ascii.eqb c "e" || Ascii.eqb c "E" then go 10
      else if Ascii.eqb c "p" || Ascii.eqb c "P" then go 2
      else Some (0, 10, s)
  end.

(** mant * 5^exp5 * 2^exp2 as a reduced fraction. *)
Definition scale_rat (mant exp5 exp2 : Z) : Q :=
  Qred (Qmake (mant * 5 ^ Z.max 0 exp5 * 2 ^ Z.max 0 exp2)
              (Z.to_pos (5 ^ Z.max 0 (- exp5) * 2 ^ Z.max 0 (- exp2)))).

(** Rat.SetString. *)
Definition rat_set_string (s : str) : option Q :=
  match s with
  | [] => None
  | _ =>
    match split2 (bs "/") s with
    | Some (na, db) =>
        match scan_sign na with
        | None => None
        | Some (neg, n1) =>
            match nat_scan false n1, nat_scan false db with
            | Some (a, _, _, []), Some (b, _, _, []) =>
                if b =? 0 then None
                else Some (Qred (Qmake (if neg : bool then - a else a) (Z.to_pos b)))
            | _, _ => None
            end
        end
    | None =>
        match scan_sign s with
        | None => None
        | Some (neg, s1) =>
            match nat_scan true s1 with
            | None => None
            | Some (mant, base, fcount, s2) =>
                match scan_exponent s2 with
                | Some (exp, ebase, []) =>
                    if mant =? 0 then Some (Qmake 0 1)
                    else
                      let d := if fcount <? 0 then fcount else 0 in
                      let fexp5 := if base =? 10 then d else 0 in
                      let fexp2 := if base =? 8 then d * 3
                                   else if base =? 16 then d * 4 else d in
                      let exp5 := if ebase =? 10 then fexp5 + exp else fexp5 in
                      let exp2 := fexp2 + exp in
                      if 1000000 <? Z.abs exp5 then None
                      else if 10000000 <? Z.abs exp2 then None
                      else Some (scale_rat (if neg : bool then - mant else mant) exp5 exp2)
                | _ => None
                end
            end
        end
    end
  end.

(** Rat.IsInt. *)
Definition rat_is_int (x : Q) : bool := (Qden x =? 1)%positive.

(** Rat.FloatString(prec). *)
Definition rat_float_string (x : Q) (prec : nat) : str :=
  if rat_is_int x then
    fmt_d (Qnum x) ++
    match prec with O => [] | _ => "."%char :: repeat "0"%char prec end
  else
    let den := Zpos (Qden x) in
    let q := Z.abs (Qnum x) / den in
    let r0 := Z.abs (Qnum x) mod den in
    let p := 10 ^ Z.of_nat prec in
    let r := r0 * p / den in
    let r2 := (r0 * p) mod den in
    let '(q, r) := if den <=? r2 + r2 then
                     if p <=? r + 1 then (q + 1, r + 1 - p) else (q, r + 1)
                   else (q, r) in
    (if Qnum x <? 0 then ["-"%char] else []) ++ fmt_nat q ++
    match prec with O => [] | _ => "."%char :: pad0 prec (fmt_nat r) end.

(** Rat.Cmp(x, y) == 0: compares the cross products. *)
Definition rat_cmp_eq (x y : Q) : bool :=
  Qnum x * Zpos (Qden y) =? Qnum y * Zpos (Qden x).
