(** C05-C08 and C13-C17: the scalar types of types.go other than Date. *)
From Coq Require Import QArith Qabs.
From Verif Require Import GoStr SpecStr SpecNum GoStrFacts GoNum GoNumFacts GoRat GoTime Types
  RatFacts TypesFacts.
Local Open Scope Z_scope.

(** C05: Int decoding succeeds exactly on an integer of the int64 range, and
    yields it. *)
Theorem C05_int_decode_exact : forall s v,
  int_unmarshal s = Some v <-> exists t, trims_to s t /\ integer t v /\ int64_range v.
Proof. exact int_unmarshal_iff. Qed.
Print Assumptions C05_int_decode_exact.

Theorem C05_int_round_trip : forall v l r, int64_range v -> ws_run l -> ws_run r ->
  int_unmarshal (l ++ int_marshal v ++ r) = Some v.
Proof. exact int_round_trip. Qed.
Print Assumptions C05_int_round_trip.

Example C05_case : int64_range (- 2 ^ 63) /\ ws_run (bs " ") /\
  int_unmarshal (bs " -9223372036854775808") = Some (- 2 ^ 63) /\
  int_unmarshal (bs "9223372036854775808") = None.
Proof.
  split; [unfold int64_range; split; [discriminate|reflexivity]|].
  split; [apply ws_run_one; exists 32%N; split; [cbn; tauto|reflexivity]|].
  split; vm_compute; reflexivity.
Qed.

(** C06: decimal literals with point or comma decode to the number they denote,
    in lowest terms. math/big refuses more than a million fractional digits of a
    nonzero number; that is the only exception. *)
Theorem C06_amount_decode_exact : forall sep nf lit q,
  sep = "."%char \/ sep = ","%char -> decimal sep nf lit q ->
  forall s, trims_to s lit ->
  amount_unmarshal s = if (1000000 <? Z.of_nat nf) && negb (Qeq_bool q 0) then None
                       else Some (Qred q).
Proof. exact amount_unmarshal_decimal. Qed.
Print Assumptions C06_amount_decode_exact.

Example C06_case : decimal "," 2 (bs "-12,50") (-25 # 2) /\ trims_to (bs " -12,50 ") (bs "-12,50") /\
  amount_unmarshal (bs " -12,50 ") = Some (-25 # 2).
Proof.
  split; [|split; [apply trim_space_iff; vm_compute; reflexivity|vm_compute; reflexivity]].
  exists (bs "-"), (bs "12"), (bs "50"), 1250. split; [right; reflexivity|].
  split; [discriminate|]. split; [reflexivity|].
  split; [apply digits_iff; split; vm_compute; reflexivity|].
  right. split; vm_compute; reflexivity.
Qed.

(** C07: amounts that are multiples of 10^-100 round-trip exactly. *)
Theorem C07_amount_round_trip : forall x k l r,
  (x == inject_Z k / inject_Z (10 ^ 100))%Q -> ws_run l -> ws_run r ->
  amount_unmarshal (l ++ amount_string x ++ r) = Some (Qred x).
Proof. exact amount_round_trip. Qed.
Print Assumptions C07_amount_round_trip.

(** C07: every other amount prints as the nearest multiple of 10^-100, ties
    away from zero. The printed text is a plain decimal literal. *)
Theorem C07_amount_rounding : forall x, exists nf lit_value m,
  (nf <= 100)%nat /\ decimal "." nf (amount_string x) lit_value /\
  amount_unmarshal (amount_string x) = Some (Qred lit_value) /\
  (lit_value == inject_Z m / inject_Z (10 ^ 100))%Q /\
  (Qabs (x - lit_value) <= (1 # 2) / inject_Z (10 ^ 100))%Q /\
  (Qabs x - Qabs lit_value < (1 # 2) / inject_Z (10 ^ 100))%Q /\
  (0 <= x * lit_value)%Q.
Proof. exact amount_rounding. Qed.
Print Assumptions C07_amount_rounding.

Example C07_case : (-25 # 2 == inject_Z (-125 * 10 ^ 99) / inject_Z (10 ^ 100))%Q /\
  amount_string (-25 # 2) = bs "-12.5" /\ amount_string 100 = bs "100".
Proof. split; [|split]; vm_compute; reflexivity. Qed.

(** C08: Equal is equality of the numbers. *)
Theorem C08_amount_equal : forall a b, amount_equal a b = true <-> (a == b)%Q.
Proof. exact amount_equal_iff. Qed.
Print Assumptions C08_amount_equal.

Theorem C08_amount_equal_equivalence :
  (forall a, amount_equal a a = true) /\
  (forall a b, amount_equal a b = true -> amount_equal b a = true) /\
  (forall a b c, amount_equal a b = true -> amount_equal b c = true -> amount_equal a c = true).
Proof. exact amount_equal_equivalence. Qed.
Print Assumptions C08_amount_equal_equivalence.

Theorem C08_amount_equal_text : forall sep1 sep2 nf1 nf2 s1 s2 q1 q2 a b,
  (sep1 = "."%char \/ sep1 = ","%char) -> (sep2 = "."%char \/ sep2 = ","%char) ->
  decimal sep1 nf1 s1 q1 -> decimal sep2 nf2 s2 q2 ->
  amount_unmarshal s1 = Some a -> amount_unmarshal s2 = Some b ->
  (amount_equal a b = true <-> (q1 == q2)%Q).
Proof. exact amount_equal_text. Qed.
Print Assumptions C08_amount_equal_text.

Example C08_case : amount_unmarshal (bs "1.50") = Some (3 # 2) /\
  amount_unmarshal (bs "+001,5") = Some (3 # 2).
Proof. split; vm_compute; reflexivity. Qed.

(** C13: booleans. *)
Theorem C13_boolean_exact : forall s b,
  boolean_unmarshal s = Some b <-> trims_to s (if b then bs "Y" else bs "N").
Proof. exact boolean_unmarshal_iff. Qed.
Print Assumptions C13_boolean_exact.

Theorem C13_boolean_round_trip : forall b l r, ws_run l -> ws_run r ->
  boolean_unmarshal (l ++ boolean_marshal b ++ r) = Some b.
Proof. exact boolean_round_trip. Qed.
Print Assumptions C13_boolean_round_trip.

Example C13_case : trims_to (bs " N") (bs "N") /\ boolean_unmarshal (bs "y") = None.
Proof. split; [apply trim_space_iff|]; vm_compute; reflexivity. Qed.

(** C14: String and UID decoding trims, and nothing else. *)
Theorem C14_string_trim : forall s t, string_unmarshal s = t <-> trims_to s t.
Proof. exact string_unmarshal_iff. Qed.
Print Assumptions C14_string_trim.

Theorem C14_uid_trim : forall s t, uid_unmarshal s = t <-> trims_to s t.
Proof. exact uid_unmarshal_iff. Qed.
Print Assumptions C14_uid_trim.

Theorem C14_round_trip_iff : forall t,
  string_unmarshal (string_marshal t) = t <-> trimmed t.
Proof. exact trimmed_fix_iff. Qed.
Print Assumptions C14_round_trip_iff.

Example C14_case : string_unmarshal (bs " a  b ") = bs "a  b".
Proof. vm_compute. reflexivity. Qed.

(** C15: UID checks. *)
Theorem C15_uid_valid : forall u, uid_valid u = true <-> (1 <= length u <= 36)%nat.
Proof. exact uid_valid_iff. Qed.
Print Assumptions C15_uid_valid.

Theorem C15_uid_recommended : forall u, uid_recommended u = true <->
  length u = 36%nat /\ forall k, In k [8; 13; 18; 23]%nat -> nth_error u k = Some "-"%char.
Proof. exact uid_recommended_iff. Qed.
Print Assumptions C15_uid_recommended.

Theorem C15_recommended_valid : forall u, uid_recommended u = true -> uid_valid u = true.
Proof. exact uid_recommended_valid. Qed.
Print Assumptions C15_recommended_valid.

Example C15_case : uid_recommended (bs "87654321-4321-4321-4321-210987654321") = true.
Proof. vm_compute. reflexivity. Qed.

(** C16: RandomUID, for every content of the 16 byte buffer. *)
Theorem C16_random_uid_format : forall b, length b = 16%nat ->
  exists u, random_uid (RandRead b 16) = Some u /\ length u = 36%nat /\
  (forall k c, nth_error u k = Some c ->
     if existsb (Nat.eqb k) [8; 13; 18; 23]%nat then c = "-"%char else is_lower_hex c = true) /\
  uid_recommended u = true.
Proof. exact random_uid_format. Qed.
Print Assumptions C16_random_uid_format.

Theorem C16_random_uid_injective : forall b b' u, length b = 16%nat -> length b' = 16%nat ->
  random_uid (RandRead b 16) = Some u -> random_uid (RandRead b' 16) = Some u -> b = b'.
Proof. exact random_uid_inj. Qed.
Print Assumptions C16_random_uid_injective.

Theorem C16_random_uid_failure : forall r,
  (r = RandErr \/ exists b n, r = RandRead b n /\ n <> 16) -> random_uid r = None.
Proof. exact random_uid_error. Qed.
Print Assumptions C16_random_uid_failure.

Example C16_case : random_uid (RandRead (bs "0123456789abcdef") 16) =
  Some (bs "30313233-3435-3637-3839-616263646566").
Proof. vm_compute. reflexivity. Qed.

(** C17: currency symbols, for every currency table. *)
Theorem C17_new_currency : forall e s c, new_curr_symbol e s = Some c <->
  length c = 3%nat /\ case_variant s c /\ env_currency e c = true.
Proof. exact new_curr_iff. Qed.
Print Assumptions C17_new_currency.

Theorem C17_decode_like_new : forall e s t, trims_to s t ->
  curr_unmarshal e s = new_curr_symbol e t.
Proof. exact new_curr_same. Qed.
Print Assumptions C17_decode_like_new.

Theorem C17_currency_round_trip : forall e s c l r,
  curr_unmarshal e s = Some c -> ws_run l -> ws_run r ->
  curr_unmarshal e (l ++ curr_marshal c ++ r) = Some c.
Proof. exact curr_round_trip. Qed.
Print Assumptions C17_currency_round_trip.

Theorem C17_currency_equal : forall a b, curr_equal a b = true <-> a = b.
Proof. exact curr_equal_iff. Qed.
Print Assumptions C17_currency_equal.

Theorem C17_currency_valid : forall c, curr_valid c = true <-> c <> bs "XXX".
Proof. exact curr_valid_iff. Qed.
Print Assumptions C17_currency_valid.

Example C17_case : exists e, curr_unmarshal e (bs " usd") = Some (bs "USD") /\
  curr_valid (bs "USD") = true.
Proof.
  exists (mkEnv (fun _ => ([], 0)) (fun c => str_eqb c (bs "USD"))). split; vm_compute; reflexivity.
Qed.
