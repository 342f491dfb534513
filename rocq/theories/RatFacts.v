(** Lemmas about GoRat.v and the Amount part of Types.v. *)
From Coq Require Import QArith Qround Qabs Lia ZifyBool ZifyNat ZifyN Lqa.
From Verif Require Import GoStr SpecStr SpecNum GoStrFacts GoNum GoNumFacts GoRat GoTime Types.
Ltac Zify.zify_post_hook ::= Z.div_mod_to_equations.
Local Open Scope Z_scope.

Lemma alnum_digit c : is_digit c = true -> alnum_val c = digit_val c.
Proof. intros H. unfold alnum_val. rewrite H. reflexivity. Qed.

Lemma scan_loop_digits ds : forall fok st rest, forallb is_digit ds = true ->
  exists st', scan_loop 10 fok st (ds ++ rest) = scan_loop 10 fok st' rest /\
    sc_acc st' = sc_acc st * 10 ^ Z.of_nat (length ds) + dval ds /\
    sc_count st' = sc_count st + Z.of_nat (length ds) /\
    sc_dp st' = sc_dp st /\ sc_inval st' = sc_inval st /\
    (is_prev_sep (sc_prev st) = false -> is_prev_sep (sc_prev st') = false).
Proof.
  induction ds as [|c ds IH]; intros fok st rest H.
  - exists st. cbn [app length]. unfold dval. cbn [fold_left]. change (10 ^ Z.of_nat 0) with 1.
    repeat split; try reflexivity; try lia. auto.
  - cbn [forallb] in H. apply andb_true_iff in H as [Hc Hds].
    cbn [app scan_loop].
    rewrite (digit_not c "."), (digit_not c "_") by (try exact Hc; cbn; lia). cbn [andb].
    rewrite alnum_digit by exact Hc.
    pose proof (digit_val_range c Hc). replace (10 <=? digit_val c) with false by lia.
    edestruct (IH fok) as [st' [H1 [H2 [H3 [H4 [H5 H6]]]]]]; [exact Hds|].
    exists st'. split; [exact H1|]. cbn [sc_acc sc_count sc_dp sc_inval sc_prev length] in *.
    split; [rewrite H2, dval_cons, Nat2Z.inj_succ, Z.pow_succ_r by lia; lia|].
    split; [lia|]. split; [exact H4|]. split; [exact H5|]. intros _. apply H6. reflexivity.
Qed.

(** The body of a decimal literal: digits, and possibly a point and digits. *)
Definition dec_body (dot : bool) (ip fp : str) : str :=
  ip ++ (if dot then "."%char :: fp else []).

Lemma scan_start dot ip fp st : forallb is_digit ip = true -> forallb is_digit fp = true ->
  (dot = false -> fp = []) ->
  sc_dp st = None -> sc_inval st = false -> is_prev_sep (sc_prev st) = false ->
  sc_acc st = 0 ->
  exists st', scan_loop 10 true st (dec_body dot ip fp) = st' /\
    sc_acc st' = dval (ip ++ fp) /\
    sc_count st' = sc_count st + Z.of_nat (length (ip ++ fp)) /\
    sc_dp st' = (if dot then Some (sc_count st + Z.of_nat (length ip)) else None) /\
    sc_inval st' = false /\ is_prev_sep (sc_prev st') = false /\ sc_rest st' = [].
Proof.
  intros Hip Hfp Hdot Hdp Hinv Hsep Hacc. unfold dec_body.
  destruct (scan_loop_digits ip true st (if dot then "."%char :: fp else []) Hip)
    as [s1 [E1 [A1 [C1 [D1 [I1 P1]]]]]].
  rewrite E1. specialize (P1 Hsep). destruct dot.
  - cbn [scan_loop]. change (Ascii.eqb "." ".") with true. cbn [andb].
    set (s2 := mkScan (sc_acc s1) (sc_count s1) (Some (sc_count s1)) PrevOther
                 (sc_inval s1 || is_prev_sep (sc_prev s1)) []).
    destruct (scan_loop_digits fp false s2 [] Hfp) as [s3 [E3 [A3 [C3 [D3 [I3 P3]]]]]].
    rewrite app_nil_r in E3. rewrite E3. cbn [scan_loop].
    eexists. split; [reflexivity|]. cbn [sc_acc sc_count sc_dp sc_inval sc_prev sc_rest].
    unfold s2 in *. cbn [sc_acc sc_count sc_dp sc_inval sc_prev] in *.
    split; [rewrite A3, A1, Hacc, dval_app; lia|].
    split; [rewrite C3, C1, app_length; lia|].
    split; [rewrite D3, C1; reflexivity|].
    split; [rewrite I3, I1, Hinv, P1; reflexivity|].
    split; [apply P3; reflexivity|reflexivity].
  - rewrite (Hdot eq_refl), app_nil_r. cbn [scan_loop].
    eexists. split; [reflexivity|]. cbn [sc_acc sc_count sc_dp sc_inval sc_prev sc_rest].
    split; [rewrite A1, Hacc; lia|]. split; [lia|]. split; [rewrite D1; exact Hdp|].
    split; [rewrite I1; exact Hinv|]. split; [exact P1|reflexivity].
Qed.

(** nat.scan on a decimal body. *)
Lemma nat_scan_decimal dot ip fp : forallb is_digit ip = true -> forallb is_digit fp = true ->
  (dot = false -> fp = []) -> ip ++ fp <> [] ->
  exists fcount, nat_scan true (dec_body dot ip fp) = Some (dval (ip ++ fp), 10, fcount, []) /\
    (if fcount <? 0 then fcount else 0) = - Z.of_nat (length fp).
Proof.
  intros Hip Hfp Hdot Hne.
  exists (if dot then - Z.of_nat (length fp) else Z.of_nat (length ip)).
  split; [|destruct dot; [|rewrite (Hdot eq_refl)]; cbn [length]; match goal with |- (if ?b then _ else _) = _ => destruct b eqn:Eb end; lia].
  assert (Hlen : 0 < Z.of_nat (length (ip ++ fp))) by (destruct (ip ++ fp); [congruence|cbn; lia]).
  (* normal start *)
  assert (Hgen : forall ip' count prev, forallb is_digit ip' = true -> is_prev_sep prev = false ->
    0 <= count -> 0 < count + Z.of_nat (length (ip' ++ fp)) ->
    (let st := scan_loop 10 true (mkScan 0 count None prev false []) (dec_body dot ip' fp) in
     let inval := sc_inval st || is_prev_sep (sc_prev st) in
     if sc_count st =? 0 then @None (Z * Z * Z * str)
     else if inval then None
     else Some (sc_acc st, 10,
                match sc_dp st with Some dp => dp - sc_count st | None => sc_count st end,
                sc_rest st)) =
    Some (dval (ip' ++ fp), 10,
          (if dot then - Z.of_nat (length fp) else count + Z.of_nat (length ip')), [])).
  { intros ip' count prev Hip' Hprev Hc Hpos.
    destruct (scan_start dot ip' fp (mkScan 0 count None prev false []) Hip' Hfp Hdot
                eq_refl eq_refl Hprev eq_refl) as [st [E [A [C [D [I [P R]]]]]]].
    cbv zeta. rewrite E. cbn [sc_count] in C, D.
    replace (sc_count st =? 0) with false by lia. rewrite I, P. cbn [orb].
    rewrite A, R, D. destruct dot.
    - rewrite C, app_length. do 3 f_equal. lia.
    - rewrite C, (Hdot eq_refl), app_nil_r. reflexivity. }
  unfold nat_scan, dec_body.
  destruct ip as [|c ip].
  - destruct dot; [|rewrite (Hdot eq_refl) in Hne; cbn in Hne; congruence].
    cbn [app]. change (Ascii.eqb "." "0") with false. cbv iota.
    specialize (Hgen [] 0 PrevOther eq_refl eq_refl ltac:(lia)). cbn [app dec_body length] in Hgen.
    unfold dec_body in Hgen. cbn [app] in Hgen. apply Hgen. exact Hlen.
  - cbn [app]. cbn [forallb] in Hip. apply andb_true_iff in Hip as [Hc Hip].
    destruct (Ascii.eqb_spec c "0") as [->|Hc0].
    + assert (Hd0 : dval ("0"%char :: ip ++ fp) = dval (ip ++ fp)).
      { rewrite dval_cons. change (digit_val "0") with 0. lia. }
      rewrite Hd0.
      specialize (Hgen ip 1 PrevDigit Hip eq_refl ltac:(lia) ltac:(lia)).
      unfold dec_body in Hgen.
      replace (Z.of_nat (length ("0"%char :: ip))) with (1 + Z.of_nat (length ip)) by (cbn [length]; lia).
      destruct (ip ++ (if dot then "."%char :: fp else [])) as [|d rest] eqn:Erest.
      * exact Hgen.
      * assert (Hd : is_digit d = true \/ d = "."%char).
        { destruct ip as [|x ip]; cbn [app] in Erest.
          - destruct dot; [injection Erest as <- _; right; reflexivity|discriminate].
          - injection Erest as <- _. cbn [forallb] in Hip. apply andb_true_iff in Hip as [-> _]. left. reflexivity. }
        assert (Hnot : forall k, (code k < 46 \/ 57 < code k)%N -> Ascii.eqb d k = false).
        { intros k Hk. destruct (Ascii.eqb_spec d k) as [->|]; [|reflexivity]. exfalso.
          destruct Hd as [Hd|Hd]; [apply is_digit_spec in Hd; lia|subst k; cbn in Hk; lia]. }
        rewrite !Hnot by (cbn; lia). cbn [orb]. exact Hgen.
    + specialize (Hgen (c :: ip) 0 PrevOther). cbn [forallb] in Hgen. rewrite Hc, Hip in Hgen.
      specialize (Hgen eq_refl eq_refl ltac:(lia) ltac:(exact Hlen)).
      unfold dec_body in Hgen. cbn [app] in Hgen. exact Hgen.
Qed.

Lemma digits_no c s : forallb is_digit s = true -> is_digit c = false -> ~ In c s.
Proof. rewrite forallb_forall. intros H Hc Hin. rewrite (H c Hin) in Hc. discriminate. Qed.

Lemma split2_slash_none sign dot ip fp : sign = [] \/ sign = bs "+" \/ sign = bs "-" ->
  forallb is_digit ip = true -> forallb is_digit fp = true ->
  split2 (bs "/") (sign ++ dec_body dot ip fp) = None.
Proof.
  intros Hs Hip Hfp. change (bs "/") with ["/"%char]. apply split2_none.
  intros Hin. apply in_app_or in Hin as [Hin|Hin].
  - destruct Hs as [-> | [-> | ->]]; cbn in Hin; intuition discriminate.
  - unfold dec_body in Hin. apply in_app_or in Hin as [Hin|Hin].
    + revert Hin. apply digits_no; [exact Hip|reflexivity].
    + destruct dot; [|destruct Hin]. destruct Hin as [Hin|Hin]; [discriminate|].
      revert Hin. apply digits_no; [exact Hfp|reflexivity].
Qed.

Lemma Qred_div n p : 0 < p -> Qred (Qmake n (Z.to_pos p)) = Qred (inject_Z n / inject_Z p)%Q.
Proof.
  intros Hp. apply Qred_complete. unfold Qeq, Qdiv, Qmult, Qinv, inject_Z.
  destruct p as [|p|p]; try lia. cbn. lia.
Qed.

Lemma scale_rat_neg m n : 0 <= n ->
  scale_rat m (- n) (- n) = Qred (inject_Z m / inject_Z (10 ^ n))%Q.
Proof.
  intros Hn. unfold scale_rat.
  replace (Z.max 0 (- n)) with 0 by lia. replace (Z.max 0 (- - n)) with n by lia.
  rewrite !Z.pow_0_r, !Z.mul_1_r, <- Z.pow_mul_l. change (5 * 2) with 10.
  apply Qred_div, Z.pow_pos_nonneg; lia.
Qed.

Lemma scan_sign_digit dot ip fp : forallb is_digit ip = true -> ip ++ fp <> [] ->
  (dot = false -> fp = []) ->
  scan_sign (dec_body dot ip fp) = Some (false, dec_body dot ip fp).
Proof.
  intros Hip Hne Hdot. unfold dec_body.
  destruct ip as [|c ip]; cbn [app] in *.
  - destruct dot; [reflexivity|]. rewrite (Hdot eq_refl) in Hne. congruence.
  - cbn [forallb] in Hip. apply andb_true_iff in Hip as [Hc Hip].
    cbn [scan_sign]. rewrite (digit_not c "-"), (digit_not c "+") by (try exact Hc; cbn; lia). reflexivity.
Qed.

(** Rat.SetString on decimal literals. *)
Lemma rat_set_string_decimal sign (neg dot : bool) ip fp :
  sign = (if neg then bs "-" else []) \/ (neg = false /\ sign = bs "+") ->
  forallb is_digit ip = true -> forallb is_digit fp = true ->
  (dot = false -> fp = []) -> ip ++ fp <> [] ->
  rat_set_string (sign ++ dec_body dot ip fp) =
  (if (1000000 <? Z.of_nat (length fp)) && negb (dval (ip ++ fp) =? 0) then None
   else Some (Qred (inject_Z (if neg then - dval (ip ++ fp) else dval (ip ++ fp)) /
                    inject_Z (10 ^ Z.of_nat (length fp))))).
Proof.
  intros Hsign Hip Hfp Hdot Hne.
  assert (Hs3 : sign = [] \/ sign = bs "+" \/ sign = bs "-").
  { destruct Hsign as [-> | [_ ->]]; [destruct neg; auto|auto]. }
  assert (Hsc : scan_sign (sign ++ dec_body dot ip fp) = Some (neg, dec_body dot ip fp)).
  { destruct Hsign as [-> | [-> ->]]; [|reflexivity].
    destruct neg; [reflexivity|]. apply scan_sign_digit; assumption. }
  assert (Hnil : sign ++ dec_body dot ip fp <> []).
  { intros Heq. apply app_eq_nil in Heq as [_ Heq]. unfold dec_body in Heq.
    destruct ip; [|discriminate]. destruct dot; [discriminate|].
    rewrite (Hdot eq_refl) in Hne. cbn in Hne. congruence. }
  unfold rat_set_string.
  destruct (sign ++ dec_body dot ip fp) as [|c0 r0] eqn:Es; [congruence|]. rewrite <- Es in *.
  clear Es c0 r0 Hnil.
  rewrite split2_slash_none by assumption. rewrite Hsc.
  destruct (nat_scan_decimal dot ip fp Hip Hfp Hdot Hne) as [fc [-> Hfc]].
  cbn [scan_exponent]. rewrite Hfc.
  set (N := dval (ip ++ fp)). set (n := Z.of_nat (length fp)).
  assert (Hn : 0 <= n) by lia.
  destruct (Z.eqb_spec N 0) as [HN|HN].
  - cbn [negb]. rewrite andb_false_r. f_equal. rewrite HN.
    replace (if neg then - 0 else 0) with 0 by (destruct neg; reflexivity).
    change (Qmake 0 1) with (Qred 0). apply Qred_complete.
    unfold Qdiv. rewrite Qmult_0_l. reflexivity.
  - cbn [negb]. rewrite andb_true_r. change (10 =? 10) with true. change (10 =? 8) with false.
    change (10 =? 16) with false. cbv iota.
    rewrite !Z.add_0_r, Z.abs_opp, Z.abs_eq by exact Hn.
    destruct (1000000 <? n) eqn:E1; [reflexivity|].
    replace (10000000 <? n) with false by lia.
    rewrite scale_rat_neg by exact Hn. reflexivity.
Qed.

(** All characters of a decimal literal are plain. *)
Lemma dec_plain sign dot ip fp sep :
  sign = [] \/ sign = bs "+" \/ sign = bs "-" -> plain sep = true ->
  forallb is_digit ip = true -> forallb is_digit fp = true ->
  forallb plain (sign ++ ip ++ (if dot : bool then sep :: fp else [])) = true.
Proof.
  intros Hs Hsep Hip Hfp. rewrite !forallb_app, (digits_plain ip Hip).
  assert (forallb plain sign = true) as -> by (destruct Hs as [-> | [-> | ->]]; reflexivity).
  destruct dot; [|reflexivity]. cbn [forallb]. rewrite Hsep, (digits_plain fp Hfp). reflexivity.
Qed.

Lemma replace_comma sign dot ip fp sep :
  sign = [] \/ sign = bs "+" \/ sign = bs "-" -> sep = "."%char \/ sep = ","%char ->
  forallb is_digit ip = true -> forallb is_digit fp = true ->
  replace_first "," "." (sign ++ ip ++ (if dot : bool then sep :: fp else [])) =
  sign ++ dec_body dot ip fp.
Proof.
  intros Hs Hsep Hip Hfp. unfold dec_body.
  assert (Hno : ~ In ","%char (sign ++ ip)).
  { intros Hin. apply in_app_or in Hin as [Hin|Hin].
    - destruct Hs as [-> | [-> | ->]]; cbn in Hin; intuition discriminate.
    - revert Hin. apply digits_no; [exact Hip|reflexivity]. }
  rewrite !app_assoc.
  destruct dot.
  - destruct Hsep as [-> | ->].
    + apply replace_first_none. intros Hin. apply in_app_or in Hin as [Hin|Hin]; [exact (Hno Hin)|].
      destruct Hin as [Hin|Hin]; [discriminate|]. revert Hin. apply digits_no; [exact Hfp|reflexivity].
    + apply replace_first_app. exact Hno.
  - rewrite !app_nil_r. apply replace_first_none. exact Hno.
Qed.

(** Amount decoding on decimal literals, both in and out of the size limit. *)
Lemma amount_unmarshal_decimal sep nf lit q :
  sep = "."%char \/ sep = ","%char -> decimal sep nf lit q ->
  forall s, trims_to s lit ->
  amount_unmarshal s = if (1000000 <? Z.of_nat nf) && negb (Qeq_bool q 0) then None
                       else Some (Qred q).
Proof.
  intros Hsep [sign [ip [fp [n [Hlit [Hne [Hlen [Hd Hq]]]]]]]] s Hs.
  apply digits_iff in Hd as [Hd Hv]. rewrite forallb_app in Hd. apply andb_true_iff in Hd as [Hip Hfp].
  assert (Hdot : exists dot : bool, (dot = false -> fp = []) /\
            lit = sign ++ ip ++ (if dot then sep :: fp else [])).
  { destruct Hlit as [[-> Hf] | ->].
    - exists false. rewrite app_nil_r. auto.
    - exists true. split; [discriminate|reflexivity]. }
  destruct Hdot as [dot [Hdot Hl]].
  assert (Hneg : exists neg : bool,
     (sign = (if neg then bs "-" else []) \/ (neg = false /\ sign = bs "+")) /\
     (q == inject_Z (if neg then - n else n) / inject_Z (10 ^ Z.of_nat nf))%Q).
  { destruct Hq as [[[-> | ->] Hq] | [-> Hq]].
    - exists false. auto.
    - exists false. auto.
    - exists true. split; [auto|]. rewrite Hq, inject_Z_opp. unfold Qdiv. ring. }
  destruct Hneg as [neg [Hsign Hqe]].
  assert (Hs3 : sign = [] \/ sign = bs "+" \/ sign = bs "-").
  { destruct Hsign as [-> | [_ ->]]; [destruct neg; auto|auto]. }
  unfold amount_unmarshal. rewrite (trim_space_complete s lit Hs), Hl.
  rewrite (replace_comma sign dot ip fp sep Hs3 Hsep Hip Hfp).
  rewrite (rat_set_string_decimal sign neg dot ip fp Hsign Hip Hfp Hdot Hne).
  rewrite Hlen, Hv. rewrite (Qred_complete _ _ Hqe).
  assert (Hz : (n =? 0) = Qeq_bool q 0).
  { apply Bool.eq_iff_eq_true. rewrite Qeq_bool_iff, Z.eqb_eq.
    assert (Hp : (0 < inject_Z (10 ^ Z.of_nat nf))%Q).
    { change 0%Q with (inject_Z 0). rewrite <- Zlt_Qlt. apply Z.pow_pos_nonneg; lia. }
    split.
    - intros ->. rewrite Hqe. replace (if neg then - 0 else 0) with 0 by (destruct neg; reflexivity).
      unfold Qdiv. rewrite Qmult_0_l. reflexivity.
    - intros H0. rewrite Hqe in H0.
      assert (Hm : (inject_Z (if neg then - n else n) == 0)%Q).
      { rewrite <- (Qmult_div_r (inject_Z (if neg then - n else n)) (inject_Z (10 ^ Z.of_nat nf))) by lra.
        rewrite H0. ring. }
      change 0%Q with (inject_Z 0) in Hm. apply (proj1 (inject_Z_injective _ _)) in Hm. destruct neg; lia. }
  rewrite Hz. reflexivity.
Qed.

(** ** Printing *)

(** The printed magnitude, as a number of units of 10^-prec. *)
Definition rounded_units (x : Q) (prec : nat) : Z :=
  (2 * Z.abs (Qnum x) * 10 ^ Z.of_nat prec + Zpos (Qden x)) / (2 * Zpos (Qden x)).

Lemma float_string_shape x prec : (0 < prec)%nat ->
  exists ip fp, rat_float_string x prec =
    (if Qnum x <? 0 then ["-"%char] else []) ++ ip ++ "."%char :: fp /\
    ip <> [] /\ forallb is_digit ip = true /\ forallb is_digit fp = true /\ length fp = prec /\
    dval (ip ++ fp) = rounded_units x prec.
Proof.
  intros Hprec. unfold rat_float_string, rounded_units, rat_is_int.
  set (P := 10 ^ Z.of_nat prec). assert (HP : 0 < P) by (apply Z.pow_pos_nonneg; lia).
  destruct prec as [|prec']; [lia|]. set (prec := S prec') in *.
  destruct (Pos.eqb_spec (Qden x) 1) as [Hden|Hden].
  - exists (fmt_nat (Z.abs (Qnum x))), (repeat "0"%char prec).
    assert (Hr : forallb is_digit (repeat "0"%char prec) = true).
    { clear. induction prec as [|k IH]; [reflexivity|exact IH]. }
    split.
    { unfold fmt_d. destruct (Qnum x <? 0) eqn:E; cbn [app].
      - rewrite Z.abs_neq by lia. reflexivity.
      - rewrite Z.abs_eq by lia. reflexivity. }
    split; [apply fmt_nat_nonempty; lia|]. split; [apply fmt_nat_digits; lia|].
    split; [exact Hr|]. split; [apply repeat_length|].
    rewrite dval_app, fmt_nat_dval, repeat_length by lia.
    rewrite <- (app_nil_r (repeat "0"%char prec)), dval_repeat0.
    change (dval []) with 0. rewrite Hden. fold P.
    apply Z.div_unique with (r := 1); lia.
  - set (den := Zpos (Qden x)). assert (Hd : 0 < den) by (unfold den; lia).
    set (a := Z.abs (Qnum x)). assert (Ha : 0 <= a) by lia.
    set (q := a / den). set (r0 := a mod den). set (r := r0 * P / den). set (r2 := (r0 * P) mod den).
    assert (Hq0 : 0 <= q) by (apply Z.div_pos; lia).
    assert (Hr0 : 0 <= r0 < den) by (apply Z.mod_pos_bound; lia).
    assert (Haq : a = den * q + r0) by (apply Z.div_mod; lia).
    assert (Hr2 : 0 <= r2 < den) by (apply Z.mod_pos_bound; lia).
    assert (Hrr : r0 * P = den * r + r2) by (apply Z.div_mod; lia).
    assert (Hr0P : 0 <= r0 * P) by (apply Z.mul_nonneg_nonneg; lia).
    assert (Hrn : 0 <= r) by (apply Z.div_pos; lia).
    assert (Hr1 : r < P).
    { apply Z.div_lt_upper_bound; [lia|]. apply Z.mul_lt_mono_pos_r; lia. }
    clearbody q r0 r r2.
    assert (Hgoal : exists q' r', (if den <=? r2 + r2 then if P <=? r + 1 then (q + 1, r + 1 - P) else (q, r + 1) else (q, r)) = (q', r') /\
      0 <= q' /\ 0 <= r' < P /\ q' * P + r' = (2 * a * P + den) / (2 * den)).
    { assert (Hv : forall k e, 0 <= e < 2 * den -> 2 * a * P + den = 2 * den * k + e -> k = (2 * a * P + den) / (2 * den)).
      { intros k e He Hk. apply Z.div_unique with (r := e); lia. }
      assert (HaP : a * P = den * (q * P + r) + r2) by (rewrite Haq; lia).
      destruct (den <=? r2 + r2) eqn:E1.
      - destruct (P <=? r + 1) eqn:E2.
        + exists (q + 1), (r + 1 - P). split; [reflexivity|]. split; [lia|]. split; [lia|].
          apply Hv with (e := 2 * r2 - den); lia.
        + exists q, (r + 1). split; [reflexivity|]. split; [lia|]. split; [lia|].
          apply Hv with (e := 2 * r2 - den); lia.
      - exists q, r. split; [reflexivity|]. split; [lia|]. split; [lia|].
        apply Hv with (e := 2 * r2 + den); lia. }
    destruct Hgoal as [q' [r' [-> [Hq' [Hr' Hval]]]]].
    exists (fmt_nat q'), (pad0 prec (fmt_nat r')).
    split; [reflexivity|]. split; [apply fmt_nat_nonempty, Hq'|].
    split; [apply fmt_nat_digits, Hq'|]. split; [apply pad0_digits; lia|].
    split; [apply pad0_length; [exact Hr'|lia]|].
    rewrite dval_app, fmt_nat_dval, pad0_dval, pad0_length by (try lia; exact Hr').
    exact Hval.
Qed.

(** Trailing zeros of a fraction. *)
Lemma trailing_zeros fp : forallb is_digit fp = true ->
  exists fp' n, fp = fp' ++ repeat "0"%char n /\ (forall s', fp' <> s' ++ ["0"%char]) /\
                forallb is_digit fp' = true.
Proof.
  intros H. destruct (trim_right_char_spec "0" fp) as [n [Hs Ht]].
  exists (trim_right_char "0" fp), n. split; [exact Hs|]. split; [exact Ht|].
  rewrite Hs, forallb_app in H. apply andb_true_iff in H as [H _]. exact H.
Qed.

Lemma last_digit_not s c : s <> [] -> forallb is_digit s = true -> is_digit c = false ->
  forall s', s <> s' ++ [c].
Proof.
  intros Hne Hd Hc s' ->. rewrite forallb_app in Hd. cbn [forallb] in Hd.
  rewrite Hc, andb_false_r in Hd. discriminate.
Qed.

(** What Amount.String prints: a decimal literal for the rounded amount. *)
Lemma amount_string_decimal x :
  exists nf q, (nf <= 100)%nat /\ decimal "." nf (amount_string x) q /\
    forallb plain (amount_string x) = true /\
    (q == inject_Z (Z.sgn (Qnum x) * rounded_units x 100) / inject_Z (10 ^ 100))%Q.
Proof.
  destruct (float_string_shape x 100 ltac:(lia)) as [ip [fp [Hf [Hne [Hip [Hfp [Hlen Hv]]]]]]].
  destruct (trailing_zeros fp Hfp) as [fp' [k [Hk [Hlast Hfp']]]].
  set (sign := if Qnum x <? 0 then ["-"%char] else []) in *.
  set (M := rounded_units x 100) in *.
  assert (Hs3 : sign = [] \/ sign = bs "+" \/ sign = bs "-").
  { unfold sign. destruct (Qnum x <? 0); auto. }
  assert (Hlen' : (length fp' + k = 100)%nat).
  { rewrite Hk, app_length, repeat_length in Hlen. exact Hlen. }
  assert (HM : M = dval (ip ++ fp') * 10 ^ Z.of_nat k).
  { rewrite <- Hv, Hk, app_assoc, dval_app, repeat_length.
    rewrite <- (app_nil_r (repeat "0"%char k)), dval_repeat0. change (dval []) with 0. lia. }
  (* the string *)
  assert (Hstr : amount_string x = sign ++ ip ++ (match fp' with [] => [] | _ => "."%char :: fp' end)).
  { unfold amount_string. rewrite Hf, Hk.
    replace (sign ++ ip ++ "."%char :: fp' ++ repeat "0"%char k)
      with ((sign ++ ip ++ "."%char :: fp') ++ repeat "0"%char k)
      by (rewrite <- !app_assoc; reflexivity).
    rewrite trim_right_char_repeat.
    - destruct fp' as [|c fp'].
      + replace (sign ++ ip ++ ["."%char]) with ((sign ++ ip) ++ repeat "."%char 1)
          by (rewrite <- app_assoc; reflexivity).
        rewrite trim_right_char_repeat; [rewrite app_nil_r; reflexivity|].
        intros s' Heq.
        destruct (exists_last Hne) as [ip' [d Hd]]. rewrite Hd, app_assoc in Heq.
        apply app_inj_tail in Heq as [_ ->].
        rewrite Hd, forallb_app in Hip. cbn in Hip. rewrite andb_false_r in Hip. discriminate.
      + rewrite <- (app_nil_r (sign ++ ip ++ "."%char :: c :: fp')) at 1.
        change [] with (repeat "."%char 0) at 1. rewrite trim_right_char_repeat; [reflexivity|].
        intros s' Heq.
        destruct (exists_last (l := c :: fp')) as [l [d Hd]]; [discriminate|].
        rewrite Hd in Heq.
        replace (sign ++ ip ++ "."%char :: l ++ [d]) with ((sign ++ ip ++ "."%char :: l) ++ [d]) in Heq
          by (rewrite <- !app_assoc; reflexivity).
        apply app_inj_tail in Heq as [_ ->].
        rewrite Hd, forallb_app in Hfp'. cbn in Hfp'. rewrite andb_false_r in Hfp'. discriminate.
    - intros s' Heq. destruct fp' as [|c fp'].
      + rewrite app_assoc in Heq. apply app_inj_tail in Heq as [_ Heq]. discriminate.
      + destruct (exists_last (l := c :: fp')) as [l [d Hd]]; [discriminate|].
        rewrite Hd in Heq.
        replace (sign ++ ip ++ "."%char :: l ++ [d]) with ((sign ++ ip ++ "."%char :: l) ++ [d]) in Heq
          by (rewrite <- !app_assoc; reflexivity).
        apply app_inj_tail in Heq as [_ ->]. apply (Hlast l Hd). }
  assert (HdM : digits (ip ++ fp') (dval (ip ++ fp'))).
  { apply digits_iff. split; [rewrite forallb_app, Hip, Hfp'; reflexivity|reflexivity]. }
  set (V := (inject_Z (dval (ip ++ fp')) / inject_Z (10 ^ Z.of_nat (length fp')))%Q).
  assert (HV : (V == inject_Z M / inject_Z (10 ^ 100))%Q).
  { unfold V. rewrite HM.
    replace (10 ^ 100) with (10 ^ Z.of_nat (length fp') * 10 ^ Z.of_nat k)
      by (rewrite <- Z.pow_add_r by lia; f_equal; lia).
    rewrite !inject_Z_mult. field.
    split; intros H0; change 0%Q with (inject_Z 0) in H0; apply (proj1 (inject_Z_injective _ _)) in H0;
      apply Z.pow_nonzero in H0; lia. }
  exists (length fp'), (if Qnum x <? 0 then (- V)%Q else V).
  split; [lia|]. split; [|split].
  - exists sign, ip, fp', (dval (ip ++ fp')). rewrite Hstr.
    split; [destruct fp'; [left; rewrite app_nil_r; auto|right; reflexivity]|].
    split; [destruct ip; [congruence|discriminate]|]. split; [reflexivity|]. split; [exact HdM|].
    unfold sign. destruct (Qnum x <? 0).
    + right. split; [reflexivity|]. unfold V. reflexivity.
    + left. split; [auto|]. unfold V. reflexivity.
  - rewrite Hstr. destruct fp' as [|c fp'].
    + apply (dec_plain sign false ip [] "."); auto.
    + apply (dec_plain sign true ip (c :: fp') "."); auto.
  - assert (HM0 : Qnum x = 0 -> M = 0).
    { intros H0. unfold M, rounded_units. rewrite H0. cbn [Z.abs].
      rewrite Z.mul_0_r, Z.mul_0_l, Z.add_0_l. apply Z.div_small. lia. }
    destruct (Z.ltb_spec (Qnum x) 0) as [Hneg|Hpos].
    + rewrite Z.sgn_neg by lia. rewrite HV.
      replace (-1 * M) with (- M) by lia. rewrite inject_Z_opp. unfold Qdiv. ring.
    + destruct (Z.eq_dec (Qnum x) 0) as [H0|H0].
      * rewrite H0. rewrite HV, (HM0 H0). reflexivity.
      * rewrite Z.sgn_pos by lia. rewrite HV, Z.mul_1_l. reflexivity.
Qed.

Definition amount_rounded (x : Q) : Q :=
  Qred (inject_Z (Z.sgn (Qnum x) * rounded_units x 100) / inject_Z (10 ^ 100)).

Lemma amount_string_unmarshal x s : trims_to s (amount_string x) ->
  amount_unmarshal s = Some (amount_rounded x).
Proof.
  intros Hs. destruct (amount_string_decimal x) as [nf [q [Hnf [Hd [_ Hq]]]]].
  rewrite (amount_unmarshal_decimal "." nf _ q (or_introl eq_refl) Hd s Hs).
  replace (1000000 <? Z.of_nat nf) with false by lia. cbn [andb].
  unfold amount_rounded. f_equal. apply Qred_complete. exact Hq.
Qed.

Lemma P100_pos : (0 < inject_Z (10 ^ 100))%Q.
Proof. change 0%Q with (inject_Z 0). rewrite <- Zlt_Qlt. reflexivity. Qed.

Lemma Q_as_div x : (x == inject_Z (Qnum x) / inject_Z (Zpos (Qden x)))%Q.
Proof. destruct x as [n d]. unfold Qeq, Qdiv, Qmult, Qinv, inject_Z. cbn. lia. Qed.

(** Multiples of 10^-100 are printed exactly. *)
Lemma units_exact x k P U : 0 < P -> (x == inject_Z k / inject_Z P)%Q ->
  U = (2 * Z.abs (Qnum x) * P + Zpos (Qden x)) / (2 * Zpos (Qden x)) ->
  Z.sgn (Qnum x) * U = k.
Proof.
  intros HP Hx HU.
  assert (Hk : Qnum x * P = k * Zpos (Qden x)).
  { destruct P as [|P|P]; try lia.
    unfold Qeq, Qdiv, Qmult, Qinv, inject_Z in Hx. cbn [Qnum Qden] in Hx. lia. }
  assert (Hu : U = Z.abs k).
  { rewrite HU. symmetry. apply Z.div_unique with (r := Zpos (Qden x)); [lia|].
    assert (Z.abs (Qnum x) * P = Z.abs k * Zpos (Qden x)).
    { rewrite <- (Z.abs_eq P) by lia.
      rewrite <- (Z.abs_eq (Zpos (Qden x))) by lia.
      rewrite <- !Z.abs_mul, Hk. reflexivity. }
    lia. }
  rewrite Hu.
  assert (Z.sgn (Qnum x) = Z.sgn k) as ->.
  { assert (Z.sgn (Qnum x * P) = Z.sgn (k * Zpos (Qden x))) as Hsg by (rewrite Hk; reflexivity).
    rewrite !Z.sgn_mul in Hsg. rewrite (Z.sgn_pos P HP) in Hsg.
    change (Z.sgn (Zpos (Qden x))) with 1 in Hsg. lia. }
  rewrite Z.mul_comm. apply Z.abs_sgn.
Qed.

Lemma amount_rounded_exact x k : (x == inject_Z k / inject_Z (10 ^ 100))%Q ->
  amount_rounded x = Qred x.
Proof.
  intros Hx. unfold amount_rounded. apply Qred_complete.
  apply Qeq_sym. eapply Qeq_trans; [exact Hx|].
  rewrite (units_exact x k (10 ^ 100) (rounded_units x 100)); [apply Qeq_refl| |exact Hx|].
  - apply Z.pow_pos_nonneg; lia.
  - unfold rounded_units. reflexivity.
Qed.

(** In general the printed amount is a nearest multiple, ties away from zero. *)
Lemma rounded_units_near x :
  (Qabs (Qabs x - inject_Z (rounded_units x 100) / inject_Z (10 ^ 100)) <=
   (1 # 2) / inject_Z (10 ^ 100))%Q /\
  (Qabs x - inject_Z (rounded_units x 100) / inject_Z (10 ^ 100) <
   (1 # 2) / inject_Z (10 ^ 100))%Q.
Proof.
  set (P := 10 ^ 100). assert (HP : 0 < P) by (apply Z.pow_pos_nonneg; lia).
  assert (HU : rounded_units x 100 = (2 * Z.abs (Qnum x) * P + Zpos (Qden x)) / (2 * Zpos (Qden x))) by reflexivity.
  clearbody P.
  set (M := rounded_units x 100). set (d := Zpos (Qden x)). assert (Hd : 0 < d) by (unfold d; lia).
  set (a := Z.abs (Qnum x)).
  assert (HM : 2 * d * M <= 2 * a * P + d < 2 * d * M + 2 * d).
  { unfold M. rewrite HU. fold d a.
    pose proof (Z.div_mod (2 * a * P + d) (2 * d) ltac:(lia)).
    pose proof (Z.mod_pos_bound (2 * a * P + d) (2 * d) ltac:(lia)). lia. }
  assert (Hx : (Qabs x == inject_Z a / inject_Z d)%Q).
  { destruct x as [n dd]. unfold Qabs, a, d. cbn [Qnum Qden].
    unfold Qeq, Qdiv, Qmult, Qinv, inject_Z. cbn. lia. }
  assert (HdQ : (0 < inject_Z d)%Q) by (change 0%Q with (inject_Z 0); rewrite <- Zlt_Qlt; exact Hd).
  assert (HPQ : (0 < inject_Z P)%Q) by (change 0%Q with (inject_Z 0); rewrite <- Zlt_Qlt; exact HP).
  set (diff := (Qabs x - inject_Z M / inject_Z P)%Q).
  assert (Hdiff : (diff * (inject_Z 2 * inject_Z d * inject_Z P) == inject_Z (2 * a * P - 2 * d * M))%Q).
  { unfold diff. rewrite Hx. unfold Z.sub. rewrite inject_Z_plus, inject_Z_opp, !inject_Z_mult. field.
    split; lra. }
  assert (Hhalf : (((1 # 2) / inject_Z P) * (inject_Z 2 * inject_Z d * inject_Z P) == inject_Z d)%Q).
  { change (inject_Z 2) with 2%Q. field. lra. }
  assert (HC : (0 < inject_Z 2 * inject_Z d * inject_Z P)%Q).
  { apply Qmult_lt_0_compat; [|exact HPQ]. apply Qmult_lt_0_compat; [reflexivity|exact HdQ]. }
  fold diff.
  assert (Hup : (diff < (1 # 2) / inject_Z P)%Q).
  { apply (Qmult_lt_r _ _ _ HC). rewrite Hdiff, Hhalf, <- Zlt_Qlt. lia. }
  assert (Hlo : (- ((1 # 2) / inject_Z P) <= diff)%Q).
  { apply (Qmult_le_r _ _ _ HC). rewrite Hdiff.
    apply Qle_trans with (- inject_Z d)%Q.
    - apply Qle_lteq. right. eapply Qeq_trans; [|apply Qopp_comp; exact Hhalf].
      generalize ((1 # 2) / inject_Z P)%Q. intros h. ring.
    - rewrite <- inject_Z_opp, <- Zle_Qle. lia. }
  split; [|exact Hup]. apply Qabs_Qle_condition. split; [exact Hlo|]. apply Qlt_le_weak, Hup.
Qed.

(** ** Equality *)

Lemma amount_equal_iff a b : amount_equal a b = true <-> (a == b)%Q.
Proof. unfold amount_equal, rat_cmp_eq, Qeq. apply Z.eqb_eq. Qed.

Lemma amount_equal_equivalence :
  (forall a, amount_equal a a = true) /\
  (forall a b, amount_equal a b = true -> amount_equal b a = true) /\
  (forall a b c, amount_equal a b = true -> amount_equal b c = true -> amount_equal a c = true).
Proof.
  split; [|split]; intros *; rewrite ?amount_equal_iff.
  - reflexivity.
  - intros H. symmetry. exact H.
  - intros H1 H2. rewrite H1. exact H2.
Qed.

Lemma amount_round_trip x k l r :
  (x == inject_Z k / inject_Z (10 ^ 100))%Q -> ws_run l -> ws_run r ->
  amount_unmarshal (l ++ amount_string x ++ r) = Some (Qred x).
Proof.
  intros Hx Hl Hr. rewrite (amount_string_unmarshal x).
  - f_equal. apply (amount_rounded_exact x k Hx).
  - exists l, r. split; [exact Hl|]. split; [exact Hr|]. split; [reflexivity|].
    destruct (amount_string_decimal x) as [nf [q [_ [_ [Hp _]]]]]. apply trimmed_all_plain, Hp.
Qed.

Lemma amount_rounding x : exists nf lit_value m,
  (nf <= 100)%nat /\ decimal "." nf (amount_string x) lit_value /\
  amount_unmarshal (amount_string x) = Some (Qred lit_value) /\
  (lit_value == inject_Z m / inject_Z (10 ^ 100))%Q /\
  (Qabs (x - lit_value) <= (1 # 2) / inject_Z (10 ^ 100))%Q /\
  (Qabs x - Qabs lit_value < (1 # 2) / inject_Z (10 ^ 100))%Q /\
  (0 <= x * lit_value)%Q.
Proof.
  destruct (amount_string_decimal x) as [nf [q [Hnf [Hd [Hp Hq]]]]].
  exists nf, q, (Z.sgn (Qnum x) * rounded_units x 100).
  split; [exact Hnf|]. split; [exact Hd|].
  assert (Ht : trims_to (amount_string x) (amount_string x)).
  { apply trim_space_iff, trim_space_id, trimmed_all_plain, Hp. }
  split.
  { rewrite (amount_unmarshal_decimal "." nf _ q (or_introl eq_refl) Hd _ Ht).
    replace (1000000 <? Z.of_nat nf) with false by lia. reflexivity. }
  split; [exact Hq|].
  destruct (rounded_units_near x) as [Hn1 Hn2].
  assert (HU : 0 <= rounded_units x 100).
  { unfold rounded_units. apply Z.div_pos; [|lia].
    assert (0 <= 10 ^ Z.of_nat 100) by (apply Z.pow_nonneg; lia). nia. }
  set (U := rounded_units x 100) in *. clearbody U.
  pose proof P100_pos as HP. set (P := inject_Z (10 ^ 100)) in *. clearbody P.
  set (V := (inject_Z U / P)%Q) in *.
  assert (HV : (0 <= V)%Q).
  { unfold V. apply Qle_shift_div_l; [exact HP|]. rewrite Qmult_0_l.
    change 0%Q with (inject_Z 0). rewrite <- Zle_Qle. exact HU. }
  assert (Hcases : (Qnum x = 0 /\ (x == 0)%Q /\ (q == 0)%Q) \/
    (0 < Qnum x /\ (0 < x)%Q /\ (q == V)%Q) \/ (Qnum x < 0 /\ (x < 0)%Q /\ (q == - V)%Q)).
  { destruct (Z.lt_trichotomy (Qnum x) 0) as [H|[H|H]].
    - right. right. split; [exact H|]. split; [unfold Qlt; cbn; lia|].
      rewrite Hq, Z.sgn_neg by exact H. replace (-1 * U) with (- U) by lia.
      rewrite inject_Z_opp. unfold V, Qdiv. ring.
    - left. split; [exact H|]. split; [unfold Qeq; cbn; lia|].
      rewrite Hq, H. cbn [Z.sgn]. rewrite Z.mul_0_l. unfold Qdiv. ring.
    - right. left. split; [exact H|]. split; [unfold Qlt; cbn; lia|].
      rewrite Hq, Z.sgn_pos by exact H. rewrite Z.mul_1_l. reflexivity. }
  assert (Hhalf : (0 < (1 # 2) / P)%Q) by (apply Qlt_shift_div_l; [exact HP|]; rewrite Qmult_0_l; reflexivity).
  destruct Hcases as [[H0 [Hx Hq0]] | [[H0 [Hx Hq0]] | [H0 [Hx Hq0]]]].
  - rewrite Hx, Hq0. split; [|split].
    + change (Qabs (0 - 0)) with 0%Q. apply Qlt_le_weak, Hhalf.
    + change (Qabs 0 - Qabs 0)%Q with 0%Q. exact Hhalf.
    + discriminate.
  - assert (Ha : (Qabs x == x)%Q) by (apply Qabs_pos, Qlt_le_weak, Hx).
    assert (Hb : (Qabs V == V)%Q) by (apply Qabs_pos, HV).
    rewrite Hq0. rewrite Ha in *. rewrite Hb. split; [exact Hn1|]. split; [exact Hn2|].
    apply Qmult_le_0_compat; [apply Qlt_le_weak, Hx|exact HV].
  - assert (Ha : (Qabs x == - x)%Q) by (apply Qabs_neg, Qlt_le_weak, Hx).
    assert (Hb : (Qabs (- V) == V)%Q) by (rewrite Qabs_opp; apply Qabs_pos, HV).
    rewrite Hq0. rewrite Ha in *. rewrite Hb. split; [|split; [exact Hn2|]].
    + rewrite <- Qabs_opp. setoid_replace (- (x - - V))%Q with (- x - V)%Q by ring. exact Hn1.
    + setoid_replace (x * - V)%Q with ((- x) * V)%Q by ring.
      apply Qmult_le_0_compat; [|exact HV]. apply (Qopp_le_compat x 0). apply Qlt_le_weak, Hx.
Qed.

Lemma amount_equal_text sep1 sep2 nf1 nf2 s1 s2 q1 q2 a b :
  (sep1 = "."%char \/ sep1 = ","%char) -> (sep2 = "."%char \/ sep2 = ","%char) ->
  decimal sep1 nf1 s1 q1 -> decimal sep2 nf2 s2 q2 ->
  amount_unmarshal s1 = Some a -> amount_unmarshal s2 = Some b ->
  (amount_equal a b = true <-> (q1 == q2)%Q).
Proof.
  intros Hs1 Hs2 Hd1 Hd2 Ha Hb.
  assert (Hg : forall sep nf s q c, sep = "."%char \/ sep = ","%char -> decimal sep nf s q ->
             amount_unmarshal s = Some c -> (c == q)%Q).
  { clear. intros sep nf s q c Hsep Hd Hc.
    assert (Ht : trims_to s s).
    { apply trim_space_iff, trim_space_id.
      destruct Hd as [sign [ip [fp [n [Hl [Hne [Hlen [Hd Hq]]]]]]]].
      apply digits_iff in Hd as [Hd _]. rewrite forallb_app in Hd. apply andb_true_iff in Hd as [Hip Hfp].
      assert (Hsg : sign = [] \/ sign = bs "+" \/ sign = bs "-") by tauto.
      assert (Hps : plain sep = true) by (destruct Hsep as [-> | ->]; reflexivity).
      apply trimmed_all_plain. destruct Hl as [[-> _] | ->].
      - pose proof (dec_plain sign false ip fp sep Hsg Hps Hip Hfp) as H. rewrite app_nil_r in H. exact H.
      - apply (dec_plain sign true ip fp sep Hsg Hps Hip Hfp). }
    rewrite (amount_unmarshal_decimal sep nf s q Hsep Hd s Ht) in Hc.
    destruct (_ && _); [discriminate|]. injection Hc as <-. apply Qred_correct. }
  rewrite amount_equal_iff, (Hg _ _ _ _ _ Hs1 Hd1 Ha), (Hg _ _ _ _ _ Hs2 Hd2 Hb). reflexivity.
Qed.
