(** C01, C03: the text of the values that have no name. *)
From Verif Require Import GoStr SpecStr SpecNum GoStrFacts GoNum Enums EnumTables EnumFacts EnumTextFacts.
Local Open Scope N_scope.

(** Different values print differently, whether they are valid or not. *)
Theorem C01_enum_all_injective : forall t, In t all_enums -> forall v w, enum_string t v = enum_string t w -> v = w.
Proof. exact enum_string_all_inj. Qed.
Print Assumptions C01_enum_all_injective.

(** A value other than those of the constants of a type prints as invalid, with
    the name of the type (its first letter in lower case) and the number. *)
Theorem C03_invalid_text : forall t ty ids v, In (t, (ty, ids)) enum_idents -> ~ (1 <= v <= N.of_nat (length ids)) ->
  exists name num, upcase name = upcase ty /\ integer num (Z.of_N v) /\
    enum_string t v = Some (bs "invalid " ++ name ++ bs " (" ++ num ++ bs ")").
Proof. exact enum_invalid_text. Qed.
Print Assumptions C03_invalid_text.

Example C03_invalid_case : enum_string enum_balType 4 = Some (bs "invalid balType (4)") /\
  enum_string enum_balType 0 = Some (bs "invalid balType (0)") /\ In enum_balType all_enums /\ In enum_balType (map fst enum_idents) /\
  enum_string enum_balType 3 = Some (bs "NUMBER").
Proof. repeat split; vm_compute; tauto. Qed.
