(** C81: every text that is accepted as a date, and its meaning. *)
From Verif Require Import GoStr SpecStr SpecNum SpecDate SpecDateText GoStrFacts GoNum GoNumFacts GoRat GoTime Types
  DateFacts DateTextFacts.
Local Open Scope Z_scope.

(** A text is read as the date [t] iff what precedes its first closing bracket
    is, without surrounding white space, a date text that means [t]. *)
Theorem C81_date_exact : forall e s t,
  date_unmarshal e s = Some t <->
  exists u v, up_to_bracket s u /\ trims_to u v /\ date_value (env_local e) v t.
Proof. exact date_exact. Qed.
Print Assumptions C81_date_exact.

(** Every date that is read is a civil time with nanoseconds at an offset of
    whole minutes, less than 25 hours. *)
Theorem C81_date_range : forall e s t, date_unmarshal e s = Some t ->
  exists c ns, civil_ok c /\ cms c = 0 /\ 0 <= ns < 1000000000 /\ t_ns t = instant c (t_off t) + ns /\
    Z.divide 60 (t_off t) /\ -90000 < t_off t < 90000.
Proof. exact date_form. Qed.
Print Assumptions C81_date_range.

(** Writing a date that was read and reading it again loses what is below the
    millisecond and nothing else. *)
Theorem C81_date_reprint : forall e s t, date_unmarshal e s = Some t ->
  Z.divide 180 (t_off t) -> ~ -3600 < t_off t < 0 -> (t_zone t = [] \/ abbreviation (t_off t) (t_zone t)) ->
  exists t', date_unmarshal e (date_string t) = Some t' /\ t_off t' = t_off t /\
    t_ns t' = t_ns t - t_ns t mod 1000000.
Proof. exact date_reprint. Qed.
Print Assumptions C81_date_reprint.

(** Accepted besides the notation of the standard: an hour of one digit, a
    fraction after a comma with seven digits, spaces before the bracket, a missing
    closing bracket, a sign in the fraction; hours before the name UTC do not
    count. *)
Example C81_case :
  let e := mkEnv (fun _ => (bs "EST", -18000)) (fun _ => true) in
  date_unmarshal e (bs " 202402297 ") = Some (mkTime (instant (mkCivil 2024 2 29 7 0 0 0) 0) 0 (bs "GMT")) /\
  date_unmarshal e (bs "20240229070500,1234567  [-5") =
    Some (mkTime (instant (mkCivil 2024 2 29 7 5 0 0) (-18000) + 123456700) (-18000) (bs "EST")) /\
  date_unmarshal e (bs "20240229070500.+12[5:UTC]x") =
    Some (mkTime (instant (mkCivil 2024 2 29 7 5 0 0) 0 + 12000000) 0 (bs "UTC")) /\
  date_unmarshal e (bs "20240229070500.-01") = None /\
  date_unmarshal e (bs "20240229 [25:EST]") = None /\
  date_unmarshal e (bs "2024022907:05") = None.
Proof. vm_compute. repeat split. Qed.

Example C81_meaning : date_value (fun _ => (bs "EST", -18000)) (bs "20240229070500,1234567  [-5")
  (mkTime (instant (mkCivil 2024 2 29 7 5 0 0) (-18000) + 123456700) (-18000) (bs "EST")).
Proof.
  assert (N : forall w v s, length s = w -> forallb is_digit s = true -> dval s = v -> num w v s).
  { intros w v s Hl Hd Hv. split; [exact Hl|]. apply digits_iff. auto. }
  apply (value_zone _ (mkCivil 2024 2 29 7 5 0 0) 123456700 (bs "20240229070500,1234567") (bs "  ") (bs "-5")).
  - apply (clock_second 2024 2 29 7 5 0 123456700 (bs "2024") (bs "02") (bs "29") (bs "07") (bs "05") (bs "00") (bs ",1234567"));
      [apply N; reflexivity..|].
    apply (fraction_digits "," (bs "1234567") [] 1234567 0).
    + right. reflexivity.
    + apply digits_iff. split; reflexivity.
    + constructor.
    + discriminate.
    + apply Nat.leb_le. reflexivity.
    + left. reflexivity.
  - unfold civil_ok. cbn. repeat split; discriminate.
  - repeat constructor.
  - apply (zone_unnamed _ (fun off => instant (mkCivil 2024 2 29 7 5 0 0) off + 123456700) (-5) 0 (bs "-5") (bs "EST") (-18000)).
    + exists (bs "-5"), [], []. split; [|split; [split; discriminate|split; [left; auto|split; [left; auto|reflexivity]]]].
      exists (bs "-"), (bs "5"), 5. split; [reflexivity|]. split; [discriminate|].
      split; [apply digits_iff; split; reflexivity|]. right. right. auto.
    + intros [H _]. discriminate H.
    + reflexivity.
Qed.
