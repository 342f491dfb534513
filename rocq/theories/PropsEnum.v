(** C01-C04: enumerations. [all_enums] are the forty enumeration types of
    constants.go; [nth_error (en_names t) k] is the k-th name of type [t]. *)
From Verif Require Import GoStr SpecStr GoStrFacts Enums EnumTables EnumFacts.
Local Open Scope N_scope.

(** C01: String then NewT / UnmarshalXML is the identity on valid values. *)
Theorem C01_enum_round_trip : forall t, In t all_enums -> forall v, enum_valid t v = true ->
  exists n, enum_string t v = Some n /\ enum_new t n = (v, true) /\ enum_unmarshal t n = Some v.
Proof. exact enum_round_trip. Qed.
Print Assumptions C01_enum_round_trip.

(** C01: different valid values print different names. *)
Theorem C01_enum_injective : forall t, In t all_enums -> forall v w,
  enum_valid t v = true -> enum_valid t w = true ->
  enum_string t v = enum_string t w -> v = w.
Proof. exact enum_string_inj. Qed.
Print Assumptions C01_enum_injective.

(** C01: the constant named TypeXxx in the source prints XXX: the values are
    1 .. number of constants, and the printed name of each spells its
    identifier (upper case, without spaces). *)
Theorem C01_enum_identifiers : forall t ty ids, In (t, (ty, ids)) enum_idents ->
  forall v, (1 <= v <= N.of_nat (length ids) <-> enum_valid t v = true) /\
  forall i, 1 <= v -> nth_error ids (N.to_nat v - 1) = Some i ->
  exists n, enum_string t v = Some n /\ upcase i = upcase ty ++ no_spaces n.
Proof. exact enum_ident_string. Qed.
Print Assumptions C01_enum_identifiers.

Example C01_cases : length all_enums = 40%nat /\ map fst enum_idents = all_enums /\
  In enum_trnType all_enums /\ enum_valid enum_trnType TrnTypeATM = true /\
  enum_string enum_trnType TrnTypeATM = Some (bs "ATM").
Proof. repeat split; vm_compute; tauto. Qed.

(** C02: decoding succeeds exactly on the names surrounded by white space, and
    gives the value with that name. *)
Theorem C02_enum_parse_exact : forall t, In t all_enums -> forall s v,
  enum_unmarshal t s = Some v <->
  exists n, trims_to s n /\ 1 <= v /\ nth_error (en_names t) (N.to_nat v - 1) = Some n.
Proof. exact enum_unmarshal_iff. Qed.
Print Assumptions C02_enum_parse_exact.

(** C02: either the value is valid and prints the trimmed text, or the receiver
    is set to 0, NewT returns 0 and an error and no name matches. *)
Theorem C02_enum_parse_total : forall t, In t all_enums -> forall s,
  (exists v n, enum_from_string t s = (v, true) /\ enum_valid t v = true /\
               enum_string t v = Some n /\ In n (en_names t) /\ trims_to s n) \/
  (enum_from_string t s = (0, false) /\ enum_new t s = (0, false) /\
   forall n, In n (en_names t) -> ~ trims_to s n).
Proof. exact enum_from_string_total. Qed.
Print Assumptions C02_enum_parse_total.

Example C02_case : enum_unmarshal enum_acctType (bs "  SAVINGS ") = Some 2 /\
  enum_unmarshal enum_acctType (bs "SAVING") = None.
Proof. split; vm_compute; reflexivity. Qed.

(** C03: a valid value is marshalled as its name, an invalid one as nothing;
    String of an invalid value is never one of the names. *)
Theorem C03_enum_marshal : forall t, In t all_enums -> forall v,
  (exists n, 1 <= v /\ nth_error (en_names t) (N.to_nat v - 1) = Some n /\
             enum_marshal t v = Some (Some n) /\ enum_string t v = Some n) \/
  (~ (1 <= v <= N.of_nat (length (en_names t))) /\ enum_marshal t v = Some None /\
   (forall n, In n (en_names t) -> enum_string t v <> Some n) /\ enum_string t v <> None).
Proof. exact enum_marshal_spec. Qed.
Print Assumptions C03_enum_marshal.

Example C03_case : enum_marshal enum_balType 3 = Some (Some (bs "NUMBER")) /\
  enum_marshal enum_balType 4 = Some None.
Proof. split; vm_compute; reflexivity. Qed.

(** C04: versions compare like the numbers they print, and split at 200. *)
Theorem C04_version_order : forall v w,
  enum_valid enum_ofxVersion v = true -> enum_valid enum_ofxVersion w = true ->
  exists nv nw zv zw,
    enum_string enum_ofxVersion v = Some nv /\ enum_string enum_ofxVersion w = Some nw /\
    SpecNum.digits nv zv /\ SpecNum.digits nw zw /\
    (v < w <-> (zv < zw)%Z) /\
    (v <= OfxVersion160 <-> (zv < 200)%Z) /\ (OfxVersion200 <= v <-> (200 <= zv)%Z).
Proof. exact version_order. Qed.
Print Assumptions C04_version_order.

Example C04_case : enum_valid enum_ofxVersion OfxVersion203 = true /\
  enum_string enum_ofxVersion OfxVersion203 = Some (bs "203").
Proof. split; vm_compute; reflexivity. Qed.
