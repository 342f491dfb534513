(** What writing and reading a date does to its zone. *)
From Coq Require Import QArith Lia Bool List.
From Verif Require Import GoStr SpecStr GoStrFacts GoNum SpecNum GoNumFacts GoTime SpecDate CalFacts TimeFacts Types DateFacts SpecDecode.
Close Scope Q_scope.
Local Open Scope Z_scope.

Lemma printed_zone_any off n : -90000 < off < 90000 -> ~ -3600 < off < 0 ->
  zone_text (reread_offset off) n
    ((if off <? 0 then fmt_plus_d (Z.quot off 3600) else fmt_d (Z.quot off 3600)) ++
     (if 0 <? Z.quot (Z.rem off 3600) 36 then "."%char :: fmt_02d (Z.quot (Z.rem off 3600) 36)
      else if Z.quot (Z.rem off 3600) 36 <? 0 then "."%char :: fmt_02d (- Z.quot (Z.rem off 3600) 36) else []) ++
     name_suffix n).
Proof.
  intros Hb Hno.
  assert (Hint : integer (if off <? 0 then fmt_plus_d (Z.quot off 3600) else fmt_d (Z.quot off 3600)) (Z.quot off 3600)).
  { destruct (off <? 0) eqn:E; [|apply fmt_d_integer].
    assert (Hq : Z.quot off 3600 <? 0 = true) by lia.
    unfold fmt_plus_d. rewrite Hq. pose proof (fmt_d_integer (Z.quot off 3600)) as H.
    unfold fmt_d in H. rewrite Hq in H. exact H. }
  set (sh := if off <? 0 then _ else _) in *.
  assert (Hneg : forall r, sh = "-"%char :: r -> Z.quot off 3600 < 0).
  { intros r Hr. unfold sh in Hr. destruct (off <? 0) eqn:E; [lia|].
    unfold fmt_d in Hr. destruct (Z.quot off 3600 <? 0) eqn:E2; [lia|].
    pose proof (fmt_nat_digits (Z.quot off 3600) ltac:(lia)) as Hd. rewrite Hr in Hd. discriminate. }
  clearbody sh.
  assert (Hhb : -24 <= Z.quot off 3600 <= 24) by lia.
  set (q := Z.quot off 3600) in *. set (f := Z.quot (Z.rem off 3600) 36) in *.
  assert (Hf : -100 < f < 100 /\ (0 <= off -> 0 <= q /\ 0 <= f /\ q = off / 3600 /\ f = off mod 3600 / 36) /\
               (off < 0 -> q < 0 /\ f <= 0 /\ - q = (- off) / 3600 /\ - f = (- off) mod 3600 / 36)).
  { unfold q, f. clear - Hb Hno. destruct (Z.neg_nonneg_cases off) as [Ho|Ho].
    - assert (E1 : Z.quot off 3600 = - ((- off) / 3600)) by (Z.to_euclidean_division_equations; lia).
      assert (E2 : Z.rem off 3600 = - ((- off) mod 3600)) by (Z.to_euclidean_division_equations; lia).
      rewrite E1, E2. assert (Hm : 0 <= (- off) mod 3600 < 3600) by (apply Z.mod_pos_bound; lia).
      assert (Hd : 1 <= (- off) / 3600) by (apply Z.div_le_lower_bound; lia).
      rewrite Z.quot_opp_l, Z.quot_div_nonneg by lia.
      assert (0 <= (- off) mod 3600 / 36 < 100) by (split; [apply Z.div_pos | apply Z.div_lt_upper_bound]; lia). lia.
    - assert (Hm : 0 <= off mod 3600 < 3600) by (apply Z.mod_pos_bound; lia).
      assert (Hd : 0 <= off / 3600) by (apply Z.div_pos; lia).
      rewrite Z.quot_div_nonneg, Z.rem_mod_nonneg, Z.quot_div_nonneg by lia.
      assert (0 <= off mod 3600 / 36 < 100) by (split; [apply Z.div_pos | apply Z.div_lt_upper_bound]; lia). lia. }
  clearbody q f. destruct Hf as [Hf [Hp Hn]].
  destruct (Z.neg_nonneg_cases off) as [Ho|Ho].
  - destruct (Hn Ho) as (H1 & H2 & H3 & H4). clear Hp Hn.
    assert (Er : reread_offset off = q * 3600 + - (- f * 60 / 100 * 60)).
    { unfold reread_offset. rewrite Z.sgn_neg, Z.abs_neq by lia. rewrite <- H3, <- H4. lia. }
    rewrite Er. replace (0 <? f) with false by lia. destruct (f <? 0) eqn:E.
    + assert (Hr : 0 <= - f < 100) by lia.
      pose proof (zone_frac q (- f) sh _ n Hint Hhb (fmt_02d_num _ Hr) Hneg) as Hz.
      replace (q <? 0) with true in Hz by lia. exact Hz.
    + assert (f = 0) as -> by lia. pose proof (zone_whole q sh n Hint Hhb) as Hz.
      match type of Hz with zone_text ?o _ _ => replace (q * 3600 + _) with o; [exact Hz|] end. change (- 0 * 60 / 100 * 60) with 0. lia.
  - destruct (Hp Ho) as (H1 & H2 & H3 & H4). clear Hp Hn.
    assert (Er : reread_offset off = q * 3600 + f * 60 / 100 * 60).
    { unfold reread_offset. rewrite Z.abs_eq by lia. rewrite <- H3, <- H4. destruct (Z.eq_dec off 0) as [->|Hz].
      - rewrite H3, H4. reflexivity.
      - rewrite Z.sgn_pos by lia. lia. }
    rewrite Er. destruct (0 <? f) eqn:E.
    + assert (Hr : 0 <= f < 100) by lia.
      pose proof (zone_frac q f sh _ n Hint Hhb (fmt_02d_num _ Hr) Hneg) as Hz.
      replace (q <? 0) with false in Hz by lia. exact Hz.
    + assert (f = 0) as -> by lia. change (0 <? 0) with false. cbn iota.
      pose proof (zone_whole q sh n Hint Hhb) as Hz.
      match type of Hz with zone_text ?o _ _ => replace (q * 3600 + _) with o; [exact Hz|] end. change (0 * 60 / 100 * 60) with 0. lia.
Qed.

Theorem date_reread e c off n l r :
  civil_ok c -> -90000 < off < 90000 -> ~ -3600 < off < 0 ->
  (n = [] \/ abbreviation (reread_offset off) n) -> ws_run l ->
  exists name, date_unmarshal e (l ++ date_string (mkTime (instant c off) off n) ++ r) =
    Some (mkTime (instant c (reread_offset off)) (reread_offset off) name).
Proof.
  intros Hok Hb Hno Hn Hl. rewrite date_string_shape. cbn [t_off t_zone].
  pose proof (printed_zone_any off n Hb Hno) as Hz.
  set (z := _ ++ _ ++ name_suffix n) in *. clearbody z.
  rewrite <- app_assoc. cbn [app]. rewrite <- app_assoc. cbn [app]. eexists.
  apply (date_decode_zone e c _ (reread_offset off) n z l r (format_ms_text c off n Hok) Hz Hn Hl), Hok.
Qed.

Lemma reread_fixed off : reread_offset off = off <-> Z.divide 180 off.
Proof.
  unfold reread_offset. destruct (Z.abs_spec off) as [[Ho ->]|[Ho ->]].
  - assert (E : Z.sgn off * (3600 * (off / 3600) + 60 * (off mod 3600 / 36 * 60 / 100)) = 3600 * (off / 3600) + 60 * (off mod 3600 / 36 * 60 / 100)).
    { destruct (Z.eq_dec off 0) as [->|H]; [reflexivity|]. rewrite Z.sgn_pos by lia. lia. }
    rewrite E. split.
    + intros H. assert (Hm : off mod 3600 = 60 * (off mod 3600 / 36 * 60 / 100)) by (Z.to_euclidean_division_equations; lia).
      assert (off mod 180 = 0); [|apply Z.mod_divide; lia].
      Z.to_euclidean_division_equations; lia.
    + intros [k ->]. Z.to_euclidean_division_equations; lia.
  - rewrite Z.sgn_neg by lia. split.
    + intros H. assert (Hm : (- off) mod 3600 = 60 * ((- off) mod 3600 / 36 * 60 / 100)) by (Z.to_euclidean_division_equations; lia).
      assert ((- off) mod 180 = 0); [|apply Z.divide_opp_r, Z.mod_divide; lia].
      Z.to_euclidean_division_equations; lia.
    + intros [k ->]. Z.to_euclidean_division_equations; lia.
Qed.

Lemma reread_near off : (0 <= off -> 0 <= off - reread_offset off < 96) /\ (off < 0 -> 0 <= reread_offset off - off < 96).
Proof.
  unfold reread_offset. split; intros Ho.
  - rewrite Z.abs_eq by lia.
    assert (E : Z.sgn off * (3600 * (off / 3600) + 60 * (off mod 3600 / 36 * 60 / 100)) = 3600 * (off / 3600) + 60 * (off mod 3600 / 36 * 60 / 100)).
    { destruct (Z.eq_dec off 0) as [->|H]; [reflexivity|]. rewrite Z.sgn_pos by lia. lia. }
    rewrite E. Z.to_euclidean_division_equations; lia.
  - rewrite Z.sgn_neg, Z.abs_neq by lia. Z.to_euclidean_division_equations; lia.
Qed.

Lemma reread_minutes m : 0 <= m -> reread_offset (60 * m) = 60 * (if m mod 3 =? 0 then m else m - 1).
Proof.
  intros Hm. unfold reread_offset. rewrite Z.abs_eq by lia.
  assert (E : Z.sgn (60 * m) * (3600 * (60 * m / 3600) + 60 * ((60 * m) mod 3600 / 36 * 60 / 100)) =
              3600 * (60 * m / 3600) + 60 * ((60 * m) mod 3600 / 36 * 60 / 100)).
  { destruct (Z.eq_dec m 0) as [->|H]; [reflexivity|]. rewrite Z.sgn_pos by lia. lia. }
  rewrite E. destruct (m mod 3 =? 0) eqn:E3; Z.to_euclidean_division_equations; lia.
Qed.

Lemma reread_opp off : reread_offset (- off) = - reread_offset off.
Proof. unfold reread_offset. rewrite Z.sgn_opp, Z.abs_opp. lia. Qed.
