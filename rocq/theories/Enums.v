(** Model of the enumeration types of /repo/constants.go. All of them are
    instances of one template (generate_constants.py), modelled once here; the
    tables are in EnumTables.v. Line numbers are those of the first instance,
    ofxVersion. *)
From Verif Require Import GoStr GoNum.
Local Open Scope N_scope.

Record enum := mkEnum {
  en_type : str;          (* Go type name, used in String *)
  en_first : N;           (* value of the first constant *)
  en_last : N;            (* value of the last constant *)
  en_names : list str     (* the array of names *)
}.

(** Valid, constants.go:36-40. *)
Definition enum_valid (t : enum) (e : N) : bool := (en_first t <=? e) && (e <=? en_last t).

(** arr[e-1]; [None] is Go's index out of range panic. *)
Definition enum_index (t : enum) (e : N) : option str :=
  if e =? 0 then None else nth_error (en_names t) (N.to_nat (e - 1)).

(** String, constants.go:42-47. *)
Definition enum_string (t : enum) (e : N) : option str :=
  if enum_valid t e then enum_index t e
  else Some (bs "invalid " ++ en_type t ++ bs " (" ++ fmt_d (Z.of_N e) ++ bs ")").

(** The search loop of FromString, constants.go:52-57: [i] is the loop index. *)
Fixpoint enum_find (value : str) (i : N) (l : list str) : option N :=
  match l with
  | [] => None
  | s :: l' => if str_eqb s value then Some (i + 1) else enum_find value (i + 1) l'
  end.

(** FromString, constants.go:49-60: the new value of the receiver and whether
    the error is nil. *)
Definition enum_from_string (t : enum) (s : str) : N * bool :=
  match enum_find (trim_space s) 0 (en_names t) with
  | Some e => (e, true)
  | None => (0, false)
  end.

(** UnmarshalXML, constants.go:62-70, on the element's text. *)
Definition enum_unmarshal (t : enum) (text : str) : option N :=
  match enum_from_string t text with
  | (e, true) => Some e
  | (_, false) => None
  end.

(** MarshalXML, constants.go:72-78: [Some None] means no element is written,
    [Some (Some text)] an element with this text, [None] a panic. *)
Definition enum_marshal (t : enum) (e : N) : option (option str) :=
  if negb (enum_valid t e) then Some None
  else match enum_index t e with
       | Some s => Some (Some s)
       | None => None
       end.

(** NewT, constants.go:82-89: value and whether the error is nil. *)
Definition enum_new (t : enum) (s : str) : N * bool :=
  match enum_from_string t s with
  | (e, true) => (e, true)
  | (_, false) => (0, false)
  end.
