(** Writing and reading again, over and over. *)
From Coq Require Import QArith Lia Bool List.
From Verif Require Import GoStr SpecStr SpecNum SpecDate SpecDateText GoStrFacts GoNum GoNumFacts GoRat GoTime CalFacts TimeFacts Types DateFacts DateTextFacts
  SpecDecode DriftFacts SpecReread RereadFacts RatFacts.
Close Scope Q_scope.
Local Open Scope Z_scope.

(** The offset that is read for the text of an offset. *)
Definition fresh (off : Z) : Z := if (-3600 <? off) && (off <? 0) then reread_offset (- off) else reread_offset off.

Lemma printed_small off n : -3600 < off < 0 -> zone_text (reread_offset (- off)) n (printed off n).
Proof.
  intros Ho. unfold printed. replace (off <? 0) with true by lia.
  assert (Eq : Z.quot off 3600 = 0) by (rewrite <- (Z.opp_involutive off), Z.quot_opp_l, Z.quot_small by lia; reflexivity).
  assert (Er : Z.rem off 3600 = off) by (rewrite <- (Z.opp_involutive off), Z.rem_opp_l, Z.rem_small by lia; reflexivity).
  rewrite Eq, Er.
  assert (Ef : Z.quot off 36 = - ((- off) / 36)) by (rewrite <- (Z.opp_involutive off), Z.quot_opp_l, Z.quot_div_nonneg by lia; rewrite Z.opp_involutive; reflexivity).
  rewrite Ef. set (f := (- off) / 36). assert (Hf : 0 <= f < 100) by (unfold f; split; [apply Z.div_pos|apply Z.div_lt_upper_bound]; lia).
  assert (Eo : reread_offset (- off) = 0 * 3600 + f * 60 / 100 * 60).
  { unfold reread_offset. rewrite Z.abs_eq, Z.sgn_pos, Z.div_small, Z.mod_small by lia. fold f. lia. }
  rewrite Eo. clearbody f. replace (0 <? - f) with false by lia.
  assert (Hi : integer (fmt_plus_d 0) 0).
  { exists (bs "+"), (bs "0"), 0. split; [reflexivity|]. split; [discriminate|].
    split; [apply digits_iff; split; reflexivity|]. right. left. auto. }
  assert (H24 : -24 <= 0 <= 24) by lia.
  destruct (- f <? 0) eqn:E.
  - assert (Hneg : forall r, fmt_plus_d 0 = "-"%char :: r -> 0 < 0) by (intros r'; discriminate).
    rewrite Z.opp_involutive. pose proof (zone_frac 0 f _ _ n Hi H24 (fmt_02d_num _ Hf) Hneg) as Hz.
    change (0 <? 0) with false in Hz. cbv iota in Hz. exact Hz.
  - assert (f = 0) as -> by lia. exact (zone_whole 0 _ n Hi H24).
Qed.

Lemma printed_fresh off n : -90000 < off < 90000 -> zone_text (fresh off) n (printed off n).
Proof.
  intros Hb. unfold fresh. destruct ((-3600 <? off) && (off <? 0)) eqn:E.
  - apply printed_small. lia.
  - apply printed_zone_any; lia.
Qed.

Lemma rewritten e c off n : civil_ok c -> -90000 < off < 90000 -> (n = [] \/ abbreviation (fresh off) n) ->
  date_unmarshal e (date_string (mkTime (instant c off) off n)) =
  Some (mkTime (instant c (fresh off)) (fresh off) (decoded_zone e (instant c (fresh off)) (fresh off) n)).
Proof.
  intros Hc Hb Hn. rewrite date_string_shape. cbn [t_off t_zone].
  pose proof (printed_fresh off n Hb) as Hz. unfold printed in Hz. set (z := _ ++ _ ++ name_suffix n) in *. clearbody z.
  destruct (date_decode_zone e c _ (fresh off) n z [] [] (format_ms_text c off n Hc) Hz Hn ws_nil) as [Hd _].
  rewrite app_nil_l in Hd. exact (Hd Hc).
Qed.

Lemma fresh_minutes off : Z.divide 60 off -> Z.divide 60 (fresh off) /\ Z.abs off - 60 <= Z.abs (fresh off) <= Z.abs off /\
  Z.divide 180 (fresh (fresh off)) /\ ~ -3600 < fresh (fresh off) < 0.
Proof.
  intros [k Hk].
  assert (P : forall m, 0 <= m -> exists j, 0 <= j <= m /\ m - 1 <= j /\ reread_offset (60 * m) = 60 * j /\ (m <= 59 -> j <= 59) /\ (60 <= m -> 60 <= j) /\
    (m mod 3 = 0 -> j = m) /\ (m mod 3 = 1 -> j mod 3 = 0) /\ (m mod 3 = 2 -> j mod 3 = 1)).
  { intros m Hm. rewrite (reread_minutes m Hm). destruct (m mod 3 =? 0) eqn:E.
    - exists m. repeat split; try lia.
    - exists (m - 1). assert (0 <= m mod 3 < 3) by (apply Z.mod_pos_bound; lia).
      repeat split; try lia; Z.to_euclidean_division_equations; lia. }
  assert (Q : forall m, 0 <= m -> exists j i, m - 1 <= j <= m /\ 0 <= j /\ reread_offset (60 * m) = 60 * j /\ reread_offset (60 * j) = 60 * i /\ 0 <= i <= j /\ i mod 3 = 0 /\
    (m <= 59 -> j <= 59) /\ (60 <= m -> 60 <= j /\ 60 <= i)).
  { intros m Hm. destruct (P m Hm) as (j & Hj & Hjl & Ej & Hl & Hg & H0 & H1 & H2). destruct (P j ltac:(lia)) as (i & Hi & _ & Ei & Hl' & Hg' & H0' & H1' & H2').
    exists j, i. assert (0 <= m mod 3 < 3) by (apply Z.mod_pos_bound; lia).
    repeat split; try lia. }
  assert (D : forall i, i mod 3 = 0 -> Z.divide 180 (60 * i)).
  { intros i Hi. apply Z.mod_divide in Hi; [|lia]. destruct Hi as [x ->]. exists x. lia. }
  unfold fresh. destruct ((-3600 <? off) && (off <? 0)) eqn:E; cbv iota.
  - destruct (Q (- k) ltac:(lia)) as (j & i & Hj & Hj0 & Ej & Ei & Hi & H3 & _). replace (- off) with (60 * - k) by lia. rewrite Ej.
    replace ((-3600 <? 60 * j) && (60 * j <? 0)) with false by lia. cbv iota. rewrite Ei. split; [exists j; lia|]. split; [lia|]. split; [exact (D i H3)|lia].
  - destruct (Z.neg_nonneg_cases off) as [Ho|Ho].
    + destruct (Q (- k) ltac:(lia)) as (j & i & Hj & Hj0 & Ej & Ei & Hi & H3 & _ & Hg). specialize (Hg ltac:(lia)).
      replace (reread_offset off) with (reread_offset (- (60 * - k))) by (f_equal; lia). rewrite reread_opp, Ej.
      replace ((-3600 <? - (60 * j)) && (- (60 * j) <? 0)) with false by lia. cbv iota. rewrite reread_opp, Ei.
      split; [exists (- j); lia|]. split; [lia|]. split; [apply Z.divide_opp_r, D, H3|lia].
    + destruct (Q k ltac:(lia)) as (j & i & Hj & Hj0 & Ej & Ei & Hi & H3 & _). replace (reread_offset off) with (reread_offset (60 * k)) by (f_equal; lia). rewrite Ej.
      replace ((-3600 <? 60 * j) && (60 * j <? 0)) with false by lia. cbv iota. rewrite Ei. split; [exists j; lia|]. split; [lia|]. split; [exact (D i H3)|lia].
Qed.

Lemma fresh_fixed off : Z.divide 180 off -> ~ -3600 < off < 0 -> fresh off = off.
Proof. intros Hd Hn. unfold fresh. replace ((-3600 <? off) && (off <? 0)) with false by lia. apply reread_fixed, Hd. Qed.

(** A zone that can be written and read. *)
Definition readable (off : Z) (n : str) : Prop := n = [] \/ abbreviation off n.

Lemma readable_fresh off n : readable off n -> readable (fresh off) n.
Proof.
  intros [-> |[Hu [[-> ->]|H]]]; [left; reflexivity| |right; split; [exact Hu|right; exact H]].
  right. change (fresh 0) with 0. split; [exact Hu|left; auto].
Qed.

Lemma decoded_readable e i off n : (forall i, readable (snd (env_local e i)) (fst (env_local e i))) -> readable off n -> readable off (decoded_zone e i off n).
Proof.
  intros He Hn. unfold decoded_zone. destruct n as [|a n]; [|exact Hn]. destruct (off =? 0) eqn:E.
  - apply Z.eqb_eq in E as ->. right. exact abbreviation_gmt.
  - specialize (He (i / 1000000000)). destruct (env_local e (i / 1000000000)) as [ln lo]. cbn [fst snd] in He.
    destruct (lo =? off) eqn:El; [|left; reflexivity]. apply Z.eqb_eq in El as ->. exact He.
Qed.

Lemma decoded_again e i off n : decoded_zone e i off (decoded_zone e i off n) = decoded_zone e i off n.
Proof.
  destruct (decoded_zone e i off n) as [|a m] eqn:E; [|reflexivity]. destruct n as [|b n]; [exact E|discriminate E].
Qed.

Lemma local_readable e s t : date_unmarshal e s = Some t -> (forall i, readable (snd (env_local e i)) (fst (env_local e i))) ->
  readable (t_off t) (t_zone t).
Proof.
  intros H He. apply date_exact in H as (u & v & _ & _ & H). destruct H as [c ns x Hcl Hc|c ns x sp z t Hcl Hc Hsp Hv].
  - right. exact abbreviation_gmt.
  - inversion Hv as [h m n z' Hzn Hne Hu Ha Es Et|h m z' Hzn Es Et|z' Hzn Es Et|h m z' ln lo Hzn Hnz Hl Es Et]; subst z'; cbn [t_zone t_off t_ns].
    + right. destruct Ha as [Hl [[E _]|H]]; [contradiction|]. split; [exact Hl|right; exact H].
    + right. exact abbr_utc.
    + right. exact abbreviation_gmt.
    + destruct (lo =? zone_offset h m) eqn:E; [|left; reflexivity]. apply Z.eqb_eq in E as <-.
      specialize (He ((instant c (zone_offset h m) + ns) / 1000000000)). cbv beta in Hl. rewrite Hl in He. exact He.
Qed.

Theorem dates_settle e s t : date_unmarshal e s = Some t ->
  (forall i, fst (env_local e i) = [] \/ abbreviation (snd (env_local e i)) (fst (env_local e i))) ->
  exists t1 t2, date_unmarshal e (date_string t) = Some t1 /\ date_unmarshal e (date_string t1) = Some t2 /\
    date_unmarshal e (date_string t2) = Some t2 /\
    t_ns t2 + t_off t2 * 1000000000 = t_ns t + t_off t * 1000000000 - t_ns t mod 1000000 /\
    Z.abs (t_off t) - 120 <= Z.abs (t_off t2) <= Z.abs (t_off t).
Proof.
  intros H He. pose proof (local_readable e s t H He) as Hn.
  destruct (date_form e s t H) as (c & ns & Hc & Hms & Hns & Et & Hd & Hb). clear H.
  destruct t as [i off n]. cbn [t_zone t_off t_ns] in *. subst i. rewrite (date_string_ms c ns off n Hns Hms). fold (with_ms c ns).
  pose proof (with_ms_ok c ns Hns Hc) as Hok. pose proof (with_ms_instant c ns off Hms) as Hi. set (k := with_ms c ns) in *. clearbody k.
  revert Hi. generalize (instant c off + ns). intros X Hi. clear c ns Hc Hms Hns.
  destruct (fresh_minutes off Hd) as (Hd1 & Ha1 & Hd2 & Hs2). destruct (fresh_minutes (fresh off) Hd1) as (_ & Ha2 & _).
  set (o1 := fresh off) in *. set (o2 := fresh o1) in *.
  pose proof (decoded_readable e (instant k o1) o1 n He (readable_fresh off n Hn)) as Hn1.
  pose proof (rewritten e k off n Hok Hb (readable_fresh off n Hn)) as E1. fold o1 in E1.
  set (n1 := decoded_zone e (instant k o1) o1 n) in *.
  pose proof (decoded_readable e (instant k o2) o2 n1 He (readable_fresh o1 n1 Hn1)) as Hn2.
  pose proof (rewritten e k o1 n1 Hok ltac:(lia) (readable_fresh o1 n1 Hn1)) as E2. fold o2 in E2.
  pose proof (decoded_again e (instant k o2) o2 n1) as En.
  set (n2 := decoded_zone e (instant k o2) o2 n1) in *.
  pose proof (rewritten e k o2 n2 Hok ltac:(lia) (readable_fresh o2 n2 Hn2)) as E3.
  rewrite (fresh_fixed o2 Hd2 Hs2), En in E3.
  exists (mkTime (instant k o1) o1 n1), (mkTime (instant k o2) o2 n2). split; [exact E1|]. split; [exact E2|]. split; [exact E3|].
  cbn [t_ns t_off]. split; [|lia]. revert Hi. unfold instant. generalize (X mod 1000000). lia.
Qed.

Theorem amounts_settle x : exists y, amount_unmarshal (amount_string x) = Some y /\ amount_unmarshal (amount_string y) = Some y.
Proof.
  destruct (amount_rounding x) as (nf & v & m & _ & _ & E & Hv & _). exists (Qred v). split; [exact E|].
  assert (Hr : (Qred v == inject_Z m / inject_Z (10 ^ 100))%Q) by (rewrite Qred_correct; exact Hv).
  pose proof (amount_round_trip (Qred v) m [] [] Hr ws_nil ws_nil) as H. rewrite app_nil_r in H. cbn [app] in H. rewrite H.
  f_equal. apply Qred_complete, Qred_correct.
Qed.
