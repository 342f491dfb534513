(** Go strings and byte slices: model of the parts of the packages [strings]
    and [bytes] that /repo uses.

    A Go string is a list of bytes; [len] is the number of bytes. *)
From Coq Require Export Ascii String ZArith NArith Bool Arith List.
Export ListNotations.
Open Scope list_scope.

Definition str := list ascii.

(** A string literal of the source. *)
Definition bs (s : string) : str := list_ascii_of_string s.

Definition code (c : ascii) : N := N_of_ascii c.

Definition chr (n : N) : ascii := ascii_of_N n.

(** Go's == on strings. *)
Fixpoint str_eqb (a b : str) : bool :=
  match a, b with
  | [], [] => true
  | x :: a', y :: b' => Ascii.eqb x y && str_eqb a' b'
  | _, _ => false
  end.

(** strings.HasPrefix. *)
Fixpoint has_prefix (p s : str) : bool :=
  match p, s with
  | [], _ => true
  | x :: p', y :: s' => Ascii.eqb x y && has_prefix p' s'
  | _ :: _, [] => false
  end.

(** strings.HasSuffix. *)
Definition has_suffix (p s : str) : bool := has_prefix (rev p) (rev s).

(** strings.Index / bytes.Index: the position of the first occurrence of [p],
    [None] for -1. *)
Fixpoint index_of (p s : str) : option nat :=
  if has_prefix p s then Some 0
  else match s with
       | [] => None
       | _ :: s' => match index_of p s' with Some n => Some (S n) | None => None end
       end.

(** strings.SplitN(s, sep, 2) for a non-empty [sep]: [None] when the separator
    does not occur (Go returns a slice of one element), [Some (before, after)]
    otherwise. *)
Definition split2 (sep s : str) : option (str * str) :=
  match index_of sep s with
  | None => None
  | Some n => Some (firstn n s, skipn (n + length sep) s)
  end.

(** ** White space: unicode.IsSpace on UTF-8 encoded text *)

(** The one byte white space characters: \t \n \v \f \r and space. *)
Definition ws1 (c : ascii) : bool :=
  ((9 <=? code c) && (code c <=? 13) || (code c =? 32))%N.

(** U+0085 and U+00A0. *)
Definition ws2 (c d : ascii) : bool :=
  ((code c =? 194) && ((code d =? 133) || (code d =? 160)))%N.

(** U+1680, U+2000-U+200A, U+2028, U+2029, U+202F, U+205F, U+3000. *)
Definition ws3 (c d e : ascii) : bool :=
  (((code c =? 225) && (code d =? 154) && (code e =? 128)) ||
   ((code c =? 226) && (code d =? 128) &&
      ((128 <=? code e) && (code e <=? 138) || (code e =? 168) ||
       (code e =? 169) || (code e =? 175))) ||
   ((code c =? 226) && (code d =? 129) && (code e =? 159)) ||
   ((code c =? 227) && (code d =? 128) && (code e =? 128)))%N.

(** strings.TrimLeftFunc(s, unicode.IsSpace). *)
Fixpoint trim_left (s : str) : str :=
  match s with
  | [] => []
  | c :: s1 =>
      if ws1 c then trim_left s1 else
      match s1 with
      | [] => s
      | d :: s2 =>
          if ws2 c d then trim_left s2 else
          match s2 with
          | [] => s
          | e :: s3 => if ws3 c d e then trim_left s3 else s
          end
      end
  end.

(** The same on the reversed string: strings.TrimRightFunc(s, unicode.IsSpace)
    decodes the last character of the string at each step. *)
Fixpoint trim_left_rev (s : str) : str :=
  match s with
  | [] => []
  | c :: s1 =>
      if ws1 c then trim_left_rev s1 else
      match s1 with
      | [] => s
      | d :: s2 =>
          if ws2 d c then trim_left_rev s2 else
          match s2 with
          | [] => s
          | e :: s3 => if ws3 e d c then trim_left_rev s3 else s
          end
      end
  end.

Definition trim_right (s : str) : str := rev (trim_left_rev (rev s)).

(** strings.TrimSpace / bytes.TrimSpace. *)
Definition trim_space (s : str) : str := trim_right (trim_left s).

(** strings.TrimLeft, strings.TrimRight and strings.Trim with a one character
    cutset. *)
Fixpoint trim_left_char (c : ascii) (s : str) : str :=
  match s with
  | [] => []
  | x :: s' => if Ascii.eqb x c then trim_left_char c s' else s
  end.

Definition trim_right_char (c : ascii) (s : str) : str :=
  rev (trim_left_char c (rev s)).

Definition trim_char (c : ascii) (s : str) : str :=
  trim_right_char c (trim_left_char c s).

(** strings.Replace(s, old, new, 1) for one character strings. *)
Fixpoint replace_first (old new : ascii) (s : str) : str :=
  match s with
  | [] => []
  | x :: s' => if Ascii.eqb x old then new :: s' else x :: replace_first old new s'
  end.

(** strings.Replace(s, "\n", "\r\n", -1) in general: every occurrence of one
    character by a string. *)
Fixpoint replace_all (old : ascii) (new s : str) : str :=
  match s with
  | [] => []
  | x :: s' => if Ascii.eqb x old then new ++ replace_all old new s'
               else x :: replace_all old new s'
  end.

(** strings.Join. *)
Fixpoint join (sep : str) (l : list str) : str :=
  match l with
  | [] => []
  | [x] => x
  | x :: l' => x ++ sep ++ join sep l'
  end.

Definition is_digit (c : ascii) : bool := ((48 <=? code c) && (code c <=? 57))%N.
Definition is_upper (c : ascii) : bool := ((65 <=? code c) && (code c <=? 90))%N.
Definition is_lower (c : ascii) : bool := ((97 <=? code c) && (code c <=? 122))%N.

(** The digit value of a digit character. *)
Definition digit_val (c : ascii) : Z := Z.of_N (code c) - 48.
