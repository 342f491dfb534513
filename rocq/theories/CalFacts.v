(** The civil calendar of GoTime.v against SpecDate.v. *)
From Coq Require Import Lia ZifyBool ZifyNat ZifyN.
From Verif Require Import GoStr SpecNum SpecDate GoNum GoTime.
Ltac Zify.zify_post_hook ::= Z.div_mod_to_equations.
Local Open Scope Z_scope.

Lemma leapb_spec y : leapb y = true <-> leap y.
Proof.
  unfold leapb, leap. rewrite andb_true_iff, orb_true_iff, negb_true_iff, Z.eqb_neq, !Z.eqb_eq.
  rewrite <- !Z.mod_divide by lia. tauto.
Qed.

Lemma is_leap_leapb y : is_leap y = leapb y.
Proof. reflexivity. Qed.

Lemma days_in_month_len y m : 1 <= m <= 12 -> days_in m y = month_len y m.
Proof.
  intros H. unfold days_in, month_len. rewrite is_leap_leapb.
  assert (m = 1 \/ m = 2 \/ m = 3 \/ m = 4 \/ m = 5 \/ m = 6 \/ m = 7 \/ m = 8 \/ m = 9 \/
          m = 10 \/ m = 11 \/ m = 12) as Hm by lia.
  repeat (destruct Hm as [-> | Hm]; [cbn; destruct (leapb y); reflexivity|]).
  rewrite Hm. reflexivity.
Qed.

Lemma days_to_year_succ y : days_to_year (y + 1) = days_to_year y + year_len y.
Proof.
  unfold days_to_year, year_len, leapb. replace (y + 1 - 1) with y by lia.
  destruct (y mod 4 =? 0) eqn:E4; cbn [andb];
    [destruct (y mod 100 =? 0) eqn:E100; cbn [negb orb];
     [destruct (y mod 400 =? 0) eqn:E400|]|]; lia.
Qed.

Lemma years_days_spec n : years_days n = days_to_year (Z.of_nat n) + 366.
Proof.
  induction n as [|n IH]; [reflexivity|]. cbn [years_days].
  rewrite IH, Nat2Z.inj_succ. unfold Z.succ. rewrite days_to_year_succ. lia.
Qed.

Lemma months_days_spec y m : 1 <= m <= 12 ->
  months_days y (Z.to_nat m) = days_before m + (if is_leap y && (3 <=? m) then 1 else 0).
Proof.
  intros H. rewrite is_leap_leapb.
  assert (m = 1 \/ m = 2 \/ m = 3 \/ m = 4 \/ m = 5 \/ m = 6 \/ m = 7 \/ m = 8 \/ m = 9 \/
          m = 10 \/ m = 11 \/ m = 12) as Hm by lia.
  repeat (destruct Hm as [-> | Hm]; [cbv -[leapb]; destruct (leapb y); reflexivity|]).
  rewrite Hm. cbv -[leapb]; destruct (leapb y); reflexivity.
Qed.

Lemma days_of_civil_spec y m d : 0 <= y -> 1 <= m <= 12 ->
  days_of_civil y m d = day_number y m d.
Proof.
  intros Hy Hm. unfold days_of_civil, day_number.
  rewrite months_days_spec, years_days_spec, Z2Nat.id by lia. lia.
Qed.

(** ** 400 year periodicity *)

Lemma leapb_period y k : leapb (y + 400 * k) = leapb y.
Proof.
  unfold leapb.
  replace ((y + 400 * k) mod 4) with (y mod 4) by (rewrite <- (Z.mod_add y (100 * k) 4) by lia; f_equal; lia).
  replace ((y + 400 * k) mod 100) with (y mod 100) by (rewrite <- (Z.mod_add y (4 * k) 100) by lia; f_equal; lia).
  replace ((y + 400 * k) mod 400) with (y mod 400) by (rewrite <- (Z.mod_add y k 400) by lia; f_equal; lia).
  reflexivity.
Qed.

Lemma days_to_year_period y k : days_to_year (y + 400 * k) = days_to_year y + 146097 * k.
Proof.
  unfold days_to_year.
  replace (y + 400 * k - 1) with ((y - 1) + 400 * k) by lia.
  replace (((y - 1) + 400 * k) / 4) with ((y - 1) / 4 + 100 * k)
    by (rewrite <- Z.div_add by lia; f_equal; lia).
  replace (((y - 1) + 400 * k) / 100) with ((y - 1) / 100 + 4 * k)
    by (rewrite <- Z.div_add by lia; f_equal; lia).
  replace (((y - 1) + 400 * k) / 400) with ((y - 1) / 400 + k)
    by (rewrite <- Z.div_add by lia; f_equal; lia).
  lia.
Qed.

Lemma days_of_civil_period y m d k :
  days_of_civil (y + 400 * k) m d = days_of_civil y m d + 146097 * k.
Proof.
  unfold days_of_civil. rewrite days_to_year_period, is_leap_leapb, leapb_period, <- is_leap_leapb. lia.
Qed.

Lemma civil_of_days_period n k :
  civil_of_days (n + 146097 * k) =
  let '(y, m, d) := civil_of_days n in (y + 400 * k, m, d).
Proof.
  unfold civil_of_days.
  replace ((n + 146097 * k) / 146097) with (n / 146097 + k)
    by (rewrite <- Z.div_add by lia; f_equal; lia).
  replace ((n + 146097 * k) mod 146097) with (n mod 146097)
    by (rewrite <- (Z.mod_add n k 146097) by lia; f_equal; lia).
  cbv zeta.
  match goal with
  | |- context [is_leap (400 * (?q + k) + ?b + ?c + ?e + 1)] =>
      replace (400 * (q + k) + b + c + e + 1) with (400 * q + b + c + e + 1 + 400 * k) by ring;
      rewrite (is_leap_leapb (400 * q + b + c + e + 1 + 400 * k)),
              (leapb_period (400 * q + b + c + e + 1) k),
              <- (is_leap_leapb (400 * q + b + c + e + 1));
      generalize (is_leap (400 * q + b + c + e + 1)); generalize (400 * q + b + c + e + 1)
  end.
  intros y0 lp. destruct lp; cbn [andb];
    repeat match goal with |- context [if ?c then _ else _] => destruct c end; reflexivity.
Qed.

(** ** One 400 year cycle, by computation *)

Definition civil_valid (y m d : Z) : bool :=
  (1 <=? m) && (m <=? 12) && (1 <=? d) && (d <=? days_in m y).

Fixpoint upto (n : positive) (f : Z -> bool) (i : Z) : bool :=
  match n with
  | xH => f i
  | xO p => upto p f i && upto p f (i + Zpos p)
  | xI p => f i && upto p f (i + 1) && upto p f (i + 1 + Zpos p)
  end.

Lemma upto_spec n f : forall i, upto n f i = true -> forall x, i <= x < i + Zpos n -> f x = true.
Proof.
  induction n as [n IH|n IH|]; intros i H x Hx; cbn [upto] in H.
  - apply andb_true_iff in H as [H H2]. apply andb_true_iff in H as [H0 H1].
    destruct (Z.eq_dec x i) as [->|]; [exact H0|].
    destruct (Z_lt_dec x (i + 1 + Zpos n)).
    + apply (IH _ H1). lia.
    + apply (IH _ H2). lia.
  - apply andb_true_iff in H as [H1 H2].
    destruct (Z_lt_dec x (i + Zpos n)).
    + apply (IH _ H1). lia.
    + apply (IH _ H2). lia.
  - replace x with i by lia. exact H.
Qed.

Definition day_check (n : Z) : bool :=
  let '(y, m, d) := civil_of_days n in
  civil_valid y m d && (days_of_civil y m d =? n) && (1 <=? y) && (y <=? 400).

Lemma day_check_cycle : upto 146097 day_check 0 = true.
Proof. vm_compute. reflexivity. Qed.

(** ** The two are inverse on all days and dates *)

Lemma civil_of_days_correct n y m d : civil_of_days n = (y, m, d) ->
  1 <= m <= 12 /\ 1 <= d <= days_in m y /\ days_of_civil y m d = n.
Proof.
  intros H.
  assert (Hn : n = n mod 146097 + 146097 * (n / 146097)) by (pose proof (Z.div_mod n 146097); lia).
  rewrite Hn, civil_of_days_period in H.
  pose proof (upto_spec _ _ _ day_check_cycle (n mod 146097)) as Hc.
  specialize (Hc ltac:(pose proof (Z.mod_pos_bound n 146097); lia)).
  unfold day_check in Hc.
  destruct (civil_of_days (n mod 146097)) as [[y0 m0] d0].
  assert (y0 + 400 * (n / 146097) = y /\ m0 = m /\ d0 = d) as [<- [<- <-]] by (split; [|split]; congruence).
  rewrite !andb_true_iff in Hc. destruct Hc as [[[Hv He] _] _].
  unfold civil_valid in Hv. rewrite !andb_true_iff in Hv.
  rewrite days_of_civil_period.
  assert (days_in m0 (y0 + 400 * (n / 146097)) = days_in m0 y0) as ->.
  { unfold days_in. rewrite is_leap_leapb, leapb_period, <- is_leap_leapb. reflexivity. }
  lia.
Qed.

Lemma days_to_year_lt a b : a < b -> days_to_year a + 365 <= days_to_year b.
Proof.
  intros H. assert (Hb : exists k, b = a + 1 + Z.of_nat k) by (exists (Z.to_nat (b - a - 1)); lia).
  destruct Hb as [k ->]. clear H. induction k as [|k IH].
  - rewrite Z.add_0_r, days_to_year_succ. unfold year_len. destruct (leapb a); lia.
  - replace (a + 1 + Z.of_nat (S k)) with (a + 1 + Z.of_nat k + 1) by lia.
    rewrite days_to_year_succ. unfold year_len. destruct (leapb _); lia.
Qed.

Lemma day_of_year_range y m d : 1 <= m <= 12 -> 1 <= d <= days_in m y ->
  days_to_year y <= days_of_civil y m d < days_to_year (y + 1).
Proof.
  intros Hm Hd. rewrite days_to_year_succ. unfold year_len. rewrite <- is_leap_leapb.
  unfold days_of_civil, days_in in *.
  assert (m = 1 \/ m = 2 \/ m = 3 \/ m = 4 \/ m = 5 \/ m = 6 \/ m = 7 \/ m = 8 \/ m = 9 \/
          m = 10 \/ m = 11 \/ m = 12) as Hc by lia.
  destruct (is_leap y);
    (repeat (destruct Hc as [-> | Hc]; [cbn in *; lia|])); rewrite Hc in *; cbn in *; lia.
Qed.

Lemma days_of_civil_inj y m d y' m' d' :
  1 <= m <= 12 -> 1 <= d <= days_in m y -> 1 <= m' <= 12 -> 1 <= d' <= days_in m' y' ->
  days_of_civil y m d = days_of_civil y' m' d' -> y = y' /\ m = m' /\ d = d'.
Proof.
  intros Hm Hd Hm' Hd' Heq.
  pose proof (day_of_year_range y m d Hm Hd) as H1.
  pose proof (day_of_year_range y' m' d' Hm' Hd') as H2.
  assert (y = y') as <-.
  { destruct (Z_lt_dec y y') as [Hlt|Hge].
    - assert (days_to_year (y + 1) <= days_to_year y') as Hle.
      { destruct (Z.eq_dec (y + 1) y') as [->|]; [lia|].
        pose proof (days_to_year_lt (y + 1) y'). lia. }
      lia.
    - destruct (Z.eq_dec y y') as [E|]; [exact E|].
      assert (days_to_year (y' + 1) <= days_to_year y) as Hle.
      { destruct (Z.eq_dec (y' + 1) y) as [->|]; [lia|].
        pose proof (days_to_year_lt (y' + 1) y). lia. }
      lia. }
  split; [reflexivity|]. clear H1 H2.
  unfold days_of_civil, days_in in *.
  assert (m = 1 \/ m = 2 \/ m = 3 \/ m = 4 \/ m = 5 \/ m = 6 \/ m = 7 \/ m = 8 \/ m = 9 \/
          m = 10 \/ m = 11 \/ m = 12) as Hc by lia.
  assert (m' = 1 \/ m' = 2 \/ m' = 3 \/ m' = 4 \/ m' = 5 \/ m' = 6 \/ m' = 7 \/ m' = 8 \/ m' = 9 \/
          m' = 10 \/ m' = 11 \/ m' = 12) as Hc' by lia.
  destruct (is_leap y);
    (repeat (destruct Hc as [-> | Hc];
      [(repeat (destruct Hc' as [-> | Hc']; [cbn in *; lia|])); rewrite Hc' in *; cbn in *; lia|]));
    rewrite Hc in *;
    (repeat (destruct Hc' as [-> | Hc']; [cbn in *; lia|])); rewrite Hc' in *; cbn in *; lia.
Qed.

Lemma civil_of_days_of_civil y m d : 1 <= m <= 12 -> 1 <= d <= days_in m y ->
  civil_of_days (days_of_civil y m d) = (y, m, d).
Proof.
  intros Hm Hd. destruct (civil_of_days (days_of_civil y m d)) as [[y' m'] d'] eqn:E.
  apply civil_of_days_correct in E as [Hm' [Hd' Heq]].
  destruct (days_of_civil_inj y' m' d' y m d Hm' Hd' Hm Hd Heq) as [-> [-> ->]]. reflexivity.
Qed.
