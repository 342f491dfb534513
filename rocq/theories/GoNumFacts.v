(** Lemmas about GoNum.v. *)
From Coq Require Import Lia ZifyBool ZifyNat ZifyN.
From Verif Require Import GoStr SpecStr SpecNum GoStrFacts GoNum.
Ltac Zify.zify_post_hook ::= Z.div_mod_to_equations.
Local Open Scope Z_scope.

Lemma is_digit_spec c : is_digit c = true <-> (48 <= code c <= 57)%N.
Proof. unfold is_digit. lia. Qed.

Lemma digit_not c k : is_digit c = true -> (code k < 48 \/ 57 < code k)%N -> Ascii.eqb c k = false.
Proof.
  intros H Hk. destruct (Ascii.eqb_spec c k) as [->|]; [|reflexivity].
  apply is_digit_spec in H. lia.
Qed.

Lemma digit_val_range c : is_digit c = true -> 0 <= digit_val c <= 9.
Proof. rewrite is_digit_spec. unfold digit_val. lia. Qed.

Lemma digit_chr_code d : 0 <= d <= 9 -> code (digit_chr d) = Z.to_N (48 + d).
Proof. intros H. unfold digit_chr. apply code_chr. lia. Qed.

Lemma digit_chr_is_digit d : 0 <= d <= 9 -> is_digit (digit_chr d) = true.
Proof. intros H. apply is_digit_spec. rewrite digit_chr_code by exact H. lia. Qed.

Lemma digit_val_chr d : 0 <= d <= 9 -> digit_val (digit_chr d) = d.
Proof. intros H. unfold digit_val. rewrite digit_chr_code by exact H. lia. Qed.

Lemma digit_chr_val c : is_digit c = true -> digit_chr (digit_val c) = c.
Proof.
  intros H. apply code_inj. rewrite digit_chr_code by (apply digit_val_range, H).
  apply is_digit_spec in H. unfold digit_val. lia.
Qed.

(** Value of a digit string. *)
Definition dval (s : str) : Z := fold_left (fun a c => 10 * a + digit_val c) s 0.

Lemma dval_acc s : forall a, fold_left (fun a c => 10 * a + digit_val c) s a =
  a * 10 ^ Z.of_nat (length s) + dval s.
Proof.
  unfold dval. induction s as [|c s IH]; intros a; cbn [fold_left length].
  - change (10 ^ Z.of_nat 0) with 1. lia.
  - rewrite IH, (IH (10 * 0 + digit_val c)).
    rewrite Nat2Z.inj_succ, Z.pow_succ_r by lia. lia.
Qed.

Lemma dval_cons c s : dval (c :: s) = digit_val c * 10 ^ Z.of_nat (length s) + dval s.
Proof. unfold dval at 1. cbn [fold_left]. rewrite dval_acc. f_equal. Qed.

Lemma dval_app s t : dval (s ++ t) = dval s * 10 ^ Z.of_nat (length t) + dval t.
Proof. unfold dval at 1. rewrite fold_left_app, dval_acc. reflexivity. Qed.

Lemma dval_snoc s c : dval (s ++ [c]) = 10 * dval s + digit_val c.
Proof. unfold dval. rewrite fold_left_app. reflexivity. Qed.

Lemma dval_nonneg s : forallb is_digit s = true -> 0 <= dval s.
Proof.
  induction s as [|c s IH]; cbn [forallb]; intros H; [cbn; lia|].
  apply andb_true_iff in H as [H1 H2]. rewrite dval_cons.
  pose proof (digit_val_range c H1). specialize (IH H2).
  assert (0 <= digit_val c * 10 ^ Z.of_nat (length s)).
  { apply Z.mul_nonneg_nonneg; [lia|apply Z.pow_nonneg; lia]. }
  lia.
Qed.

Lemma dval_bound s : forallb is_digit s = true -> dval s < 10 ^ Z.of_nat (length s).
Proof.
  induction s as [|c s IH]; cbn [forallb]; intros H; [cbn; lia|].
  apply andb_true_iff in H as [H1 H2]. rewrite dval_cons.
  pose proof (digit_val_range c H1). specialize (IH H2). cbn [length].
  rewrite Nat2Z.inj_succ, Z.pow_succ_r by lia. nia.
Qed.

Lemma dval_repeat0 n s : dval (repeat "0"%char n ++ s) = dval s.
Proof.
  induction n as [|n IH]; [reflexivity|]. cbn [repeat app]. rewrite dval_cons, IH.
  change (digit_val "0"%char) with 0. lia.
Qed.

Lemma digits_acc_spec s : forall a,
  digits_acc a s = if forallb is_digit s
                   then Some (a * 10 ^ Z.of_nat (length s) + dval s) else None.
Proof.
  induction s as [|c s IH]; intros a; cbn [digits_acc forallb].
  - unfold dval. cbn. f_equal. lia.
  - destruct (is_digit c) eqn:E; cbn [andb]; [|reflexivity].
    rewrite IH. destruct (forallb is_digit s); [|reflexivity]. f_equal.
    rewrite dval_cons. cbn [length]. rewrite Nat2Z.inj_succ, Z.pow_succ_r by lia. lia.
Qed.

Lemma parse_udec_spec s :
  parse_udec s = if forallb is_digit s && negb (Nat.eqb (length s) 0)
                 then Some (dval s) else None.
Proof.
  unfold parse_udec. destruct s as [|c s]; [reflexivity|].
  rewrite digits_acc_spec. cbn [length Nat.eqb negb]. rewrite andb_true_r.
  destruct (forallb is_digit (c :: s)); [|reflexivity]. reflexivity.
Qed.

Lemma parse_udec_digits s : forallb is_digit s = true -> s <> [] -> parse_udec s = Some (dval s).
Proof.
  intros H Hne. rewrite parse_udec_spec, H. destruct s; [congruence|reflexivity].
Qed.

(** ** fmt_nat *)

Lemma dec_aux_spec fuel : forall n acc, 0 <= n < 2 ^ Z.of_nat fuel -> (0 < fuel)%nat ->
  exists ds, dec_aux fuel n acc = ds ++ acc /\ ds <> [] /\ forallb is_digit ds = true /\
             dval ds = n /\ (n <> 0 -> hd "0"%char ds <> "0"%char) /\ (n = 0 -> ds = ["0"%char]).
Proof.
  induction fuel as [|f IH]; intros n acc Hn Hf; [lia|]. cbn [dec_aux].
  destruct (n <? 10) eqn:E.
  - exists [digit_chr n]. cbn [app forallb hd]. split; [reflexivity|]. split; [discriminate|].
    rewrite digit_chr_is_digit by lia. split; [reflexivity|].
    split; [unfold dval; cbn [fold_left]; rewrite digit_val_chr by lia; lia|].
    split.
    + intros H0 Heq. apply (f_equal code) in Heq. rewrite digit_chr_code in Heq by lia.
      change (code "0"%char) with 48%N in Heq. lia.
    + intros ->. reflexivity.
  - assert (Hpow : 2 ^ Z.of_nat (S f) = 2 * 2 ^ Z.of_nat f).
    { rewrite Nat2Z.inj_succ, Z.pow_succ_r by lia. reflexivity. }
    destruct f as [|f'].
    { change (2 ^ Z.of_nat 0) with 1 in Hpow. lia. }
    destruct (IH (n / 10) (digit_chr (n mod 10) :: acc)) as [ds [Hd [Hne [Hall [Hv [Hh Hz]]]]]].
    { split; [lia|]. lia. }
    { lia. }
    exists (ds ++ [digit_chr (n mod 10)]).
    rewrite Hd, <- app_assoc. split; [reflexivity|].
    split; [destruct ds; discriminate|].
    split; [rewrite forallb_app, Hall; cbn [forallb]; rewrite digit_chr_is_digit by lia; reflexivity|].
    split; [rewrite dval_snoc, Hv, digit_val_chr by lia; lia|].
    split; [|lia]. intros _. destruct ds as [|d ds]; [congruence|]. cbn [app hd].
    apply Hh. lia.
Qed.

Lemma fmt_nat_spec n : 0 <= n ->
  fmt_nat n <> [] /\ forallb is_digit (fmt_nat n) = true /\ dval (fmt_nat n) = n /\
  (n <> 0 -> hd "0"%char (fmt_nat n) <> "0"%char) /\ (n = 0 -> fmt_nat n = ["0"%char]).
Proof.
  intros Hn. unfold fmt_nat.
  destruct (dec_aux_spec (S (Z.to_nat (Z.log2 n))) n []) as [ds [Hd H]].
  - split; [exact Hn|].
    rewrite Nat2Z.inj_succ, Z2Nat.id by apply Z.log2_nonneg.
    destruct (Z.eq_dec n 0) as [->|Hne]; [cbn; lia|].
    apply Z.log2_spec. lia.
  - lia.
  - rewrite Hd, app_nil_r. exact H.
Qed.

Lemma fmt_nat_nonempty n : 0 <= n -> fmt_nat n <> [].
Proof. intros H. apply (fmt_nat_spec n H). Qed.
Lemma fmt_nat_digits n : 0 <= n -> forallb is_digit (fmt_nat n) = true.
Proof. intros H. apply (fmt_nat_spec n H). Qed.
Lemma fmt_nat_dval n : 0 <= n -> dval (fmt_nat n) = n.
Proof. intros H. apply (fmt_nat_spec n H). Qed.

Lemma fmt_nat_length n k : 0 <= n < 10 ^ Z.of_nat k -> (0 < k)%nat -> (length (fmt_nat n) <= k)%nat.
Proof.
  intros Hn Hk. destruct (fmt_nat_spec n) as [Hne [Hd [Hv [Hh Hz]]]]; [lia|].
  destruct (Z.eq_dec n 0) as [->|H0].
  - rewrite Hz by reflexivity. cbn. lia.
  - specialize (Hh H0). destruct (fmt_nat n) as [|c s] eqn:E; [congruence|].
    cbn [hd length] in *. cbn [forallb] in Hd. apply andb_true_iff in Hd as [Hc Hs].
    assert (1 <= digit_val c).
    { pose proof (digit_val_range c Hc). destruct (Z.eq_dec (digit_val c) 0) as [Hdz|]; [|lia].
      exfalso. apply Hh. rewrite <- (digit_chr_val c Hc), Hdz. reflexivity. }
    rewrite dval_cons in Hv. pose proof (dval_nonneg s Hs).
    assert (10 ^ Z.of_nat (length s) < 10 ^ Z.of_nat k) as Hlt by nia.
    apply Z.pow_lt_mono_r_iff in Hlt; lia.
Qed.

Lemma pad0_digits w n : 0 <= n -> forallb is_digit (pad0 w (fmt_nat n)) = true.
Proof.
  intros Hn. unfold pad0. rewrite forallb_app, fmt_nat_digits, andb_true_r by exact Hn.
  induction (w - length (fmt_nat n))%nat as [|k IH]; [reflexivity|]. cbn. exact IH.
Qed.

Lemma pad0_dval w n : 0 <= n -> dval (pad0 w (fmt_nat n)) = n.
Proof. intros Hn. unfold pad0. rewrite dval_repeat0. apply fmt_nat_dval, Hn. Qed.

Lemma pad0_length w n : 0 <= n < 10 ^ Z.of_nat w -> (0 < w)%nat ->
  length (pad0 w (fmt_nat n)) = w.
Proof.
  intros Hn Hw. unfold pad0. rewrite app_length, repeat_length.
  pose proof (fmt_nat_length n w Hn Hw). lia.
Qed.

(** Digit strings of the same length and value are equal. *)
Lemma dval_inj s : forall t, length s = length t ->
  forallb is_digit s = true -> forallb is_digit t = true -> dval s = dval t -> s = t.
Proof.
  induction s as [|c s IH]; intros [|d t] Hl Hs Ht Hv; cbn [length] in Hl; try lia; [reflexivity|].
  cbn [forallb] in Hs, Ht. apply andb_true_iff in Hs as [Hc Hs], Ht as [Hd Ht].
  rewrite !dval_cons in Hv. assert (Hl' : length s = length t) by lia.
  rewrite Hl' in Hv.
  pose proof (dval_nonneg s Hs). pose proof (dval_nonneg t Ht).
  pose proof (dval_bound s Hs). pose proof (dval_bound t Ht). rewrite Hl' in *.
  assert (digit_val c = digit_val d) as Hcd by nia.
  assert (dval s = dval t) as Hst by nia.
  f_equal; [|apply IH; assumption || exact Hst || lia].
  rewrite <- (digit_chr_val c Hc), <- (digit_chr_val d Hd), Hcd. reflexivity.
Qed.

(** ** Specification of digit strings *)

Lemma digit_iff c d : digit c d <-> is_digit c = true /\ digit_val c = d.
Proof.
  split.
  - intros [k [Hk ->]].
    do 10 (destruct k as [|k]; [injection Hk as <-; split; reflexivity|]).
    destruct k; discriminate.
  - intros [Hc <-]. pose proof (digit_val_range c Hc) as Hr.
    exists (Z.to_nat (digit_val c)). split; [|lia].
    rewrite <- (digit_chr_val c Hc) at 2.
    assert (digit_val c = 0 \/ digit_val c = 1 \/ digit_val c = 2 \/ digit_val c = 3 \/
            digit_val c = 4 \/ digit_val c = 5 \/ digit_val c = 6 \/ digit_val c = 7 \/
            digit_val c = 8 \/ digit_val c = 9) as Hcases by lia.
    repeat (destruct Hcases as [-> | Hcases]; [reflexivity|]). rewrite Hcases. reflexivity.
Qed.

Lemma digits_iff s : forall v, digits s v <-> forallb is_digit s = true /\ dval s = v.
Proof.
  intros v. split.
  - induction 1 as [|s v c d Hs [Hall Hv] Hd]; [split; reflexivity|].
    apply digit_iff in Hd as [Hc <-]. rewrite forallb_app, Hall, dval_snoc, Hv. cbn [forallb andb].
    rewrite Hc. split; reflexivity.
  - revert v. induction s as [|c s IH] using rev_ind; intros v [Hall <-].
    + apply digits_nil.
    + rewrite forallb_app in Hall. apply andb_true_iff in Hall as [Hs Hc].
      cbn [forallb] in Hc. rewrite andb_true_r in Hc. rewrite dval_snoc.
      apply digits_snoc; [apply IH; auto|apply digit_iff; auto].
Qed.

(** ** ParseUint and ParseInt *)

Lemma parse_uint_loop_spec s : forall n, 0 <= n ->
  (n <= max_u64) ->
  parse_uint_loop n s =
    if forallb is_digit s
    then let v := n * 10 ^ Z.of_nat (length s) + dval s in
         if v <=? max_u64 then Some v else None
    else None.
Proof.
  induction s as [|c s IH]; intros n Hn Hm; cbn [parse_uint_loop forallb].
  - unfold dval. cbn [length fold_left]. change (10 ^ Z.of_nat 0) with 1.
    cbv zeta. replace (n * 1 + 0 <=? max_u64) with true by lia. f_equal. lia.
  - destruct (is_digit c) eqn:Hc; cbn [andb]; [|reflexivity].
    pose proof (digit_val_range c Hc) as Hr.
    assert (Hval : n * 10 ^ Z.of_nat (length (c :: s)) + dval (c :: s) =
                   (n * 10 + digit_val c) * 10 ^ Z.of_nat (length s) + dval s).
    { rewrite dval_cons. cbn [length]. rewrite Nat2Z.inj_succ, Z.pow_succ_r by lia. lia. }
    cbv zeta. rewrite Hval.
    assert (Hp : 1 <= 10 ^ Z.of_nat (length s)) by (pose proof (Z.pow_pos_nonneg 10 (Z.of_nat (length s))); lia).
    assert (Hbig : max_u64 < n * 10 + digit_val c -> forallb is_digit s = true ->
       ((n * 10 + digit_val c) * 10 ^ Z.of_nat (length s) + dval s <=? max_u64) = false).
    { intros Hlt Hs. pose proof (dval_nonneg s Hs). nia. }
    destruct (cutoff10 <=? n) eqn:E1.
    { destruct (forallb is_digit s) eqn:Hs; [|reflexivity].
      rewrite Hbig; [reflexivity| |reflexivity]. unfold cutoff10, max_u64 in *. lia. }
    destruct (max_u64 <? n * 10 + digit_val c) eqn:E2.
    { destruct (forallb is_digit s) eqn:Hs; [|reflexivity].
      rewrite Hbig; [reflexivity|lia|reflexivity]. }
    rewrite IH by lia. reflexivity.
Qed.

Lemma parse_uint_spec s :
  parse_uint s = if forallb is_digit s && negb (Nat.eqb (length s) 0) && (dval s <=? max_u64)
                 then Some (dval s) else None.
Proof.
  unfold parse_uint. destruct s as [|c s]; [reflexivity|].
  rewrite parse_uint_loop_spec by (unfold max_u64; lia).
  cbn [length Nat.eqb negb]. rewrite andb_true_r. cbv zeta.
  replace (0 * 10 ^ Z.of_nat (S (length s)) + dval (c :: s)) with (dval (c :: s)) by lia.
  destruct (forallb is_digit (c :: s)); cbn [andb]; reflexivity.
Qed.

Lemma sign_not_digit c : Ascii.eqb c "-" || Ascii.eqb c "+" = true -> is_digit c = false.
Proof.
  intros H. apply orb_true_iff in H as [H|H]; apply Ascii.eqb_eq in H; subst c; reflexivity.
Qed.

(** The complete characterisation of ParseInt. *)
Lemma parse_int_iff s v : parse_int s = Some v <-> integer s v /\ int64_range v.
Proof.
  unfold int64_range, integer. split.
  - destruct s as [|c s]; cbn [parse_int]; [discriminate|].
    assert (Hgen : forall (neg : bool) body,
      match parse_uint body with
      | None => None
      | Some un =>
          if negb neg && (9223372036854775808 <=? un) then None
          else if neg && (9223372036854775808 <? un) then None
          else Some (if neg then - un else un)
      end = Some v ->
      body <> [] /\ digits body (dval body) /\ v = (if neg then - dval body else dval body) /\
      - 2 ^ 63 <= v < 2 ^ 63).
    { intros neg body. rewrite parse_uint_spec.
      destruct (forallb is_digit body && negb (Nat.eqb (length body) 0) && (dval body <=? max_u64)) eqn:E;
        [|discriminate].
      rewrite !andb_true_iff in E. destruct E as [[Hd Hne] Hmax].
      assert (Hne' : body <> []) by (destruct body; [discriminate|congruence]).
      pose proof (dval_nonneg body Hd) as Hnn.
      destruct (negb neg && (9223372036854775808 <=? dval body)) eqn:E1; [discriminate|].
      destruct (neg && (9223372036854775808 <? dval body)) eqn:E2; [discriminate|].
      intros Hv. injection Hv as Hv.
      split; [exact Hne'|]. split; [apply digits_iff; auto|]. split; [congruence|].
      destruct neg; cbn [negb andb] in *; lia. }
    intros H. apply Hgen in H as [Hne [Hd [Hv Hr]]]. split; [|exact Hr].
    revert Hne Hd Hv.
    destruct (Ascii.eqb_spec c "-") as [->|Hm]; cbn [orb]; intros Hne Hd Hv.
    + exists (bs "-"), s, (dval s). split; [reflexivity|]. split; [exact Hne|]. split; [exact Hd|].
      right. right. split; [reflexivity|exact Hv].
    + revert Hne Hd Hv. destruct (Ascii.eqb_spec c "+") as [->|Hp]; cbn [orb]; intros Hne Hd Hv.
      * exists (bs "+"), s, (dval s). split; [reflexivity|]. split; [exact Hne|]. split; [exact Hd|].
        right. left. split; [reflexivity|exact Hv].
      * exists [], (c :: s), (dval (c :: s)). split; [reflexivity|]. split; [exact Hne|]. split; [exact Hd|].
        left. split; [reflexivity|exact Hv].
  - intros [[sign [body [n [-> [Hne [Hd Hsign]]]]]] Hr].
    apply digits_iff in Hd as [Hd Hv].
    pose proof (dval_nonneg body Hd) as Hnn.
    assert (Hcond : forall w, w = n -> 0 <= w <= max_u64 -> parse_uint body = Some n).
    { intros w -> Hw. rewrite parse_uint_spec, Hd. destruct body; [congruence|].
      cbn [length Nat.eqb negb andb]. rewrite Hv. replace (n <=? max_u64) with true by lia. reflexivity. }
    unfold max_u64 in Hcond.
    destruct Hsign as [[-> Hs] | [[-> Hs] | [-> Hs]]].
    + subst v. cbn [app]. destruct body as [|c body]; [congruence|].
      cbn [forallb] in Hd. apply andb_true_iff in Hd as [Hc Hd].
      cbn [parse_int].
      assert (Ascii.eqb c "-" || Ascii.eqb c "+" = false) as Hns.
      { destruct (Ascii.eqb c "-" || Ascii.eqb c "+") eqn:E; [|reflexivity].
        apply sign_not_digit in E. congruence. }
      rewrite Hns, (Hcond n eq_refl) by lia. apply orb_false_iff in Hns as [-> _].
      cbn [negb andb]. replace (9223372036854775808 <=? n) with false by lia. reflexivity.
    + subst v. cbn [bs list_ascii_of_string app parse_int]. change (Ascii.eqb "+" "-") with false.
      change (Ascii.eqb "+" "+") with true. cbn [orb]. rewrite (Hcond n eq_refl) by lia.
      cbn [negb andb]. replace (9223372036854775808 <=? n) with false by lia. reflexivity.
    + subst v. cbn [bs list_ascii_of_string app parse_int]. change (Ascii.eqb "-" "-") with true.
      cbn [orb]. rewrite (Hcond n eq_refl) by lia. cbn [negb andb].
      replace (9223372036854775808 <? n) with false by lia. reflexivity.
Qed.

(** Small numbers: no overflow, no sign. *)
Lemma parse_int_digits s : s <> [] -> forallb is_digit s = true -> dval s < 2 ^ 63 ->
  parse_int s = Some (dval s).
Proof.
  intros Hne Hd Hb. apply parse_int_iff. pose proof (dval_nonneg s Hd).
  split; [|unfold int64_range; lia].
  exists [], s, (dval s). split; [reflexivity|]. split; [exact Hne|].
  split; [apply digits_iff; auto|left; auto].
Qed.

Lemma fmt_d_integer v : integer (fmt_d v) v.
Proof.
  unfold fmt_d, integer. destruct (v <? 0) eqn:E.
  - exists (bs "-"), (fmt_nat (- v)), (- v). split; [reflexivity|].
    split; [apply fmt_nat_nonempty; lia|]. split; [apply digits_iff; split; [apply fmt_nat_digits; lia|apply fmt_nat_dval; lia]|].
    right. right. split; [reflexivity|lia].
  - exists [], (fmt_nat v), v. split; [reflexivity|].
    split; [apply fmt_nat_nonempty; lia|]. split; [apply digits_iff; split; [apply fmt_nat_digits; lia|apply fmt_nat_dval; lia]|].
    left. split; reflexivity.
Qed.

(** Digits are plain characters. *)
Lemma digit_plain c : is_digit c = true -> plain c = true.
Proof. rewrite is_digit_spec. unfold plain. lia. Qed.

Lemma digits_plain s : forallb is_digit s = true -> forallb plain s = true.
Proof.
  rewrite !forallb_forall. intros H x Hx. apply digit_plain, H, Hx.
Qed.

Lemma fmt_nat_plain n : 0 <= n -> forallb plain (fmt_nat n) = true.
Proof. intros H. apply digits_plain, fmt_nat_digits, H. Qed.

Lemma fmt_d_plain v : forallb plain (fmt_d v) = true.
Proof.
  unfold fmt_d. destruct (v <? 0) eqn:E; cbn [forallb].
  - rewrite fmt_nat_plain by lia. reflexivity.
  - apply fmt_nat_plain. lia.
Qed.

Lemma fmt_d_trimmed v : trimmed (fmt_d v).
Proof. apply trimmed_all_plain, fmt_d_plain. Qed.

Lemma fmt_d_inj v w : fmt_d v = fmt_d w -> v = w.
Proof.
  intros H. unfold fmt_d in H.
  destruct (v <? 0) eqn:Ev, (w <? 0) eqn:Ew.
  - injection H as H. apply (f_equal dval) in H. rewrite !fmt_nat_dval in H by lia. lia.
  - pose proof (fmt_nat_digits w) as Hw. rewrite <- H in Hw. cbn in Hw. specialize (Hw ltac:(lia)). discriminate.
  - pose proof (fmt_nat_digits v) as Hw. rewrite H in Hw. cbn in Hw. specialize (Hw ltac:(lia)). discriminate.
  - apply (f_equal dval) in H. rewrite !fmt_nat_dval in H by lia. lia.
Qed.

(** ** Hexadecimal *)

Lemma hex_digit_inj a b : (a < 16)%N -> (b < 16)%N -> hex_digit a = hex_digit b -> a = b.
Proof.
  unfold hex_digit. intros Ha Hb H.
  destruct (a <? 10)%N eqn:Ea, (b <? 10)%N eqn:Eb; apply (f_equal code) in H;
    rewrite !code_chr in H by lia; lia.
Qed.

Lemma hex_byte_inj a b : hex_byte a = hex_byte b -> a = b.
Proof.
  unfold hex_byte. intros H. injection H as H1 H2.
  pose proof (code_lt a). pose proof (code_lt b).
  apply hex_digit_inj in H1; [|lia|lia]. apply hex_digit_inj in H2; [|lia|lia].
  apply code_inj. lia.
Qed.

Lemma fmt_hex_length s : length (fmt_hex s) = (2 * length s)%nat.
Proof.
  unfold fmt_hex. induction s as [|c s IH]; [reflexivity|].
  cbn [flat_map]. rewrite app_length, IH. cbn [hex_byte length]. lia.
Qed.

Lemma fmt_hex_inj s : forall t, fmt_hex s = fmt_hex t -> s = t.
Proof.
  unfold fmt_hex. induction s as [|c s IH]; intros [|d t] H; cbn [flat_map] in H; try discriminate; [reflexivity|].
  unfold hex_byte in H. cbn [app] in H. injection H as H1 H2 H3.
  f_equal; [|apply IH, H3].
  apply hex_byte_inj. unfold hex_byte. congruence.
Qed.

Definition is_lower_hex (c : ascii) : bool :=
  is_digit c || ((97 <=? code c) && (code c <=? 102))%N.

Lemma hex_digit_is_hex n : (n < 16)%N -> is_lower_hex (hex_digit n) = true.
Proof.
  intros H. unfold hex_digit, is_lower_hex, is_digit.
  destruct (n <? 10)%N eqn:E; rewrite code_chr by lia; lia.
Qed.

Lemma fmt_hex_is_hex s : forallb is_lower_hex (fmt_hex s) = true.
Proof.
  unfold fmt_hex. induction s as [|c s IH]; [reflexivity|].
  cbn [flat_map]. rewrite forallb_app, IH. cbn [hex_byte forallb].
  pose proof (code_lt c). rewrite !hex_digit_is_hex by lia. reflexivity.
Qed.
