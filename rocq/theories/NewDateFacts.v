(** Proofs for C83. *)
From Coq Require Import Lia ZifyBool ZifyNat ZifyN.
From Verif Require Import GoStr SpecStr SpecNum SpecDate GoStrFacts GoNum GoNumFacts GoTime Types CalFacts DateFacts
  NewDate SpecNewDate.
Local Open Scope Z_scope.

Lemma norm_spec hi lo base : 0 < base -> norm hi lo base = (hi + lo / base, lo mod base).
Proof.
  intros Hb. unfold norm. destruct (Z.ltb_spec lo 0) as [Hl|Hl].
  - rewrite Z.quot_div_nonneg by lia.
    assert (E : (- lo - 1) / base + 1 = - (lo / base)).
    { pose proof (Z.div_mod lo base ltac:(lia)). pose proof (Z.mod_pos_bound lo base Hb).
      assert (H1 : (- lo - 1) / base = - (lo / base) - 1); [|lia].
      symmetry. apply (Z.div_unique_pos _ _ _ (base - 1 - lo mod base)); [lia|]. nia. }
    rewrite E. pose proof (Z.div_mod lo base ltac:(lia)). pose proof (Z.mod_pos_bound lo base Hb).
    replace (lo + - (lo / base) * base) with (lo mod base) by nia.
    replace (base <=? lo mod base) with false by lia. f_equal. lia.
  - destruct (Z.leb_spec base lo) as [H|H].
    + rewrite Z.quot_div_nonneg by lia. pose proof (Z.div_mod lo base ltac:(lia)). f_equal. nia.
    + rewrite Z.div_small, Z.mod_small by lia. f_equal. lia.
Qed.

Lemma time_date_spec y mo d h mi s ns loc : 0 <= y + (mo - 1) / 12 ->
  time_date y mo d h mi s ns loc =
  let t := resolve loc (clock y mo d h mi s ns) in
  mkTime (t * 1000000000 + ns mod 1000000000) (zp_off (loc t)) (zp_name (loc t)).
Proof.
  intros Hy. unfold time_date. rewrite !norm_spec by lia. cbv iota.
  rewrite days_of_civil_spec; [|exact Hy|pose proof (Z.mod_pos_bound (mo - 1) 12); lia].
  match goal with |- context [resolve loc ?u] => replace u with (clock y mo d h mi s ns) end; [reflexivity|].
  unfold clock, month_start, day_number.
  set (Y := years_days _ - 366 + months_days _ _).
  set (s1 := s + ns / 1000000000). set (m1 := mi + s1 / 60). set (h1 := h + m1 / 60).
  pose proof (Z.div_mod s1 60 ltac:(lia)). pose proof (Z.div_mod m1 60 ltac:(lia)).
  pose proof (Z.div_mod h1 24 ltac:(lia)).
  unfold h1, m1, s1 in *. lia.
Qed.

Lemma outside_iff p u : outside p u = false <-> during p u.
Proof.
  unfold outside, during. rewrite orb_false_iff. split.
  - intros [H1 H2]. split; intros x Hx; rewrite Hx in *; lia.
  - intros [H1 H2]. split.
    + destruct (zp_start p) as [a|]; [|reflexivity]. specialize (H1 a eq_refl). lia.
    + destruct (zp_end p) as [b|]; [|reflexivity]. specialize (H2 b eq_refl). lia.
Qed.

Lemma during_dec p u : during p u \/ (exists a, zp_start p = Some a /\ u < a) \/ (exists b, zp_end p = Some b /\ b <= u).
Proof.
  destruct (outside p u) eqn:E.
  - right. unfold outside in E. apply orb_true_iff in E as [E|E].
    + left. destruct (zp_start p) as [a|]; [|discriminate]. exists a. split; [reflexivity|lia].
    + right. destruct (zp_end p) as [b|]; [|discriminate]. exists b. split; [reflexivity|lia].
  - left. apply outside_iff. exact E.
Qed.

(** Two instants whose periods differ are on different sides of a boundary. *)
Lemma resolve_shown loc m w : proper_location loc m -> shown loc w ->
  resolve loc w + zp_off (loc (resolve loc w)) = w.
Proof.
  intros (Hin & Hsame & Hoff & Hlen) [i Hi]. unfold resolve. cbv zeta.
  destruct (Z.eqb_spec (zp_off (loc w)) 0) as [E0|_]; [lia|].
  set (u := w - zp_off (loc w)).
  destruct (outside (loc w) u) eqn:Eo.
  2:{ apply outside_iff in Eo. fold u. rewrite (Hsame w u Eo). unfold u. lia. }
  assert (Hnu : ~ during (loc w) u) by (rewrite <- outside_iff, Eo; discriminate).
  pose proof (Hoff w) as Bw. pose proof (Hoff i) as Bi. pose proof (Hoff u) as Bu.
  assert (Hni : ~ during (loc w) i).
  { intros H. pose proof (Hsame w i H) as E. apply Hnu. replace u with i; [exact H|]. unfold u. rewrite <- E. lia. }
  assert (Hui : loc i = loc u).
  { destruct (during_dec (loc w) u) as [H|[(a & Ha & Hlt)|(b & Hb & Hle)]]; [contradiction| |].
    - (* [u] lies before the period of [w] *)
      pose proof (proj1 (Hin w) a Ha) as Haw.
      destruct (during_dec (loc w) i) as [H|[(a' & Ha' & Hlt')|(b' & Hb' & Hle')]]; [contradiction| |].
      + rewrite Ha in Ha'. injection Ha' as <-.
        (* both lie within 2m before [a]; the period before [a] is longer *)
        assert (Hprev : during (loc (a - 1)) u /\ during (loc (a - 1)) i).
        { assert (Hend : forall b, zp_end (loc (a - 1)) = Some b -> b <= w -> a <= b).
          { intros b Hb _. pose proof (proj2 (Hin (a - 1)) b Hb). lia. }
          assert (Hend' : exists b, zp_end (loc (a - 1)) = Some b /\ b <= w).
          { destruct (zp_end (loc (a - 1))) as [b|] eqn:Eb.
            - destruct (Z.le_gt_cases b w) as [|Hgt]; [eauto|]. exfalso.
              assert (Hd : during (loc (a - 1)) w).
              { split; [|intros b' Hb'; congruence]. intros a' Ha'. pose proof (proj1 (Hin (a - 1)) a' Ha'). lia. }
              rewrite (Hsame _ _ Hd) in Ha. pose proof (proj1 (Hin (a - 1)) a Ha). lia.
            - exfalso. assert (Hd : during (loc (a - 1)) w).
              { split; [|intros b' Hb'; congruence]. intros a' Ha'. pose proof (proj1 (Hin (a - 1)) a' Ha'). lia. }
              rewrite (Hsame _ _ Hd) in Ha. pose proof (proj1 (Hin (a - 1)) a Ha). lia. }
          destruct Hend' as (b & Hb & Hbw). pose proof (Hend b Hb Hbw) as Hab.
          assert (Hst : forall a', zp_start (loc (a - 1)) = Some a' -> a' < b - 2 * m).
          { intros a' Ha'. pose proof (Hlen _ _ _ Ha' Hb). lia. }
          assert (Hb2 : b = a).
          { (* the period of [b] contains [w], hence starts at [a] *)
            destruct (Z.eq_dec b a) as [|Hne]; [assumption|]. exfalso.
            assert (Hd : during (loc w) (b - 1)).
            { split; [intros a' Ha'; rewrite Ha in Ha'; injection Ha' as <-; lia|].
              intros b' Hb'. pose proof (proj2 (Hin w) b' Hb'). lia. }
            pose proof (Hsame _ _ Hd) as E1.
            assert (Hd2 : during (loc (a - 1)) (b - 1)).
            { split; [intros a' Ha'; pose proof (proj1 (Hin (a - 1)) a' Ha'); lia|].
              intros b' Hb'. rewrite Hb in Hb'. injection Hb' as <-. lia. }
            pose proof (Hsame _ _ Hd2) as E2. rewrite E2 in E1. rewrite <- E1 in Ha.
            pose proof (proj1 (Hin (a - 1)) a Ha). lia. }
          subst b. split; (split; [intros a' Ha'; specialize (Hst a' Ha')|intros b' Hb'; rewrite Hb in Hb'; injection Hb' as <-]); unfold u in *; lia. }
        destruct Hprev as [H1 H2]. rewrite (Hsame _ _ H1), (Hsame _ _ H2). reflexivity.
      + exfalso. pose proof (Hlen w a b' Ha Hb'). unfold u in *. lia.
    - (* [u] lies behind the period of [w] *)
      pose proof (proj2 (Hin w) b Hb) as Hbw.
      destruct (during_dec (loc w) i) as [H|[(a' & Ha' & Hlt')|(b' & Hb' & Hle')]]; [contradiction| |].
      + exfalso. pose proof (Hlen w a' b Ha' Hb). unfold u in *. lia.
      + rewrite Hb in Hb'. injection Hb' as <-.
        assert (Hst : exists a, zp_start (loc b) = Some a /\ w < a).
        { destruct (zp_start (loc b)) as [a|] eqn:Ea.
          - destruct (Z.lt_ge_cases w a) as [|Hge]; [eauto|]. exfalso.
            assert (Hd : during (loc b) w).
            { split; [intros a' Ha'; congruence|]. intros b' Hb'. pose proof (proj2 (Hin b) b' Hb'). lia. }
            rewrite (Hsame _ _ Hd) in Hb. pose proof (proj2 (Hin b) b Hb). lia.
          - exfalso. assert (Hd : during (loc b) w).
            { split; [intros a' Ha'; congruence|]. intros b' Hb'. pose proof (proj2 (Hin b) b' Hb'). lia. }
            rewrite (Hsame _ _ Hd) in Hb. pose proof (proj2 (Hin b) b Hb). lia. }
        destruct Hst as (a & Ha & Hwa). pose proof (proj1 (Hin b) a Ha) as Hab.
        assert (Hba : a = b).
        { destruct (Z.eq_dec a b) as [|Hne]; [assumption|]. exfalso.
          assert (Hd : during (loc w) a).
          { split; [|intros b' Hb'; rewrite Hb in Hb'; injection Hb' as <-; lia].
            intros a' Ha'. pose proof (proj1 (Hin w) a' Ha'). lia. }
          assert (Hd2 : during (loc b) a).
          { split; [intros a' Ha'; rewrite Ha in Ha'; injection Ha' as <-; lia|].
            intros b' Hb'. pose proof (proj2 (Hin b) b' Hb'). lia. }
          pose proof (Hsame _ _ Hd) as E1. pose proof (Hsame _ _ Hd2) as E2. rewrite E2 in E1.
          rewrite <- E1 in Hb. pose proof (proj2 (Hin b) b Hb). lia. }
        subst a.
        assert (Hen : forall b', zp_end (loc b) = Some b' -> b + 2 * m < b').
        { intros b' Hb'. pose proof (Hlen _ _ _ Ha Hb'). lia. }
        assert (H1 : during (loc b) u).
        { split; [intros a' Ha'; rewrite Ha in Ha'; injection Ha' as <-; lia|].
          intros b' Hb'. specialize (Hen b' Hb'). unfold u in *. lia. }
        assert (H2 : during (loc b) i).
        { split; [intros a' Ha'; rewrite Ha in Ha'; injection Ha' as <-; lia|].
          intros b' Hb'. specialize (Hen b' Hb'). unfold u in *. lia. }
        rewrite (Hsame _ _ H1), (Hsame _ _ H2). reflexivity. }
  rewrite <- Hui. replace (w - zp_off (loc i)) with i by lia. lia.
Qed.

Lemma ns_split t n : 0 <= n < 1000000000 -> (t * 1000000000 + n) / 1000000000 = t /\ (t * 1000000000 + n) mod 1000000000 = n.
Proof.
  intros H. split.
  - symmetry. apply (Z.div_unique_pos _ _ _ n); lia.
  - symmetry. apply (Z.mod_unique_pos _ _ t n); lia.
Qed.

Lemma new_date_clock y mo d h mi s ns loc m : proper_location loc m -> 0 <= y + (mo - 1) / 12 ->
  shown loc (clock y mo d h mi s ns) ->
  let t := new_date y mo d h mi s ns loc in
  t_ns t / 1000000000 + t_off t = clock y mo d h mi s ns /\ t_ns t mod 1000000000 = ns mod 1000000000 /\
  t_off t = zp_off (loc (t_ns t / 1000000000)) /\ t_zone t = zp_name (loc (t_ns t / 1000000000)).
Proof.
  intros Hp Hy Hs. cbv zeta. unfold new_date. rewrite time_date_spec by exact Hy. cbv zeta. cbn [t_ns t_off t_zone].
  destruct (ns_split (resolve loc (clock y mo d h mi s ns)) (ns mod 1000000000)) as [E1 E2];
    [apply Z.mod_pos_bound; lia|].
  rewrite E1, E2. split; [exact (resolve_shown loc m _ Hp Hs)|]. repeat split; reflexivity.
Qed.

Lemma fixed_proper name off : proper_location (fixed_zone name off) (Z.abs off).
Proof.
  split; [intros t; split; intros x H; discriminate|]. split; [reflexivity|].
  split; [intros t; cbn; lia|]. intros t a b H. discriminate.
Qed.

Lemma fixed_resolve name off w : resolve (fixed_zone name off) w = w - off.
Proof.
  unfold resolve, fixed_zone. cbn [zp_off]. destruct (Z.eqb_spec off 0) as [->|H]; [lia|reflexivity].
Qed.

Lemma new_date_fixed y mo d h mi s ns name off : 0 <= y + (mo - 1) / 12 ->
  new_date y mo d h mi s ns (fixed_zone name off) =
  mkTime ((clock y mo d h mi s ns - off) * 1000000000 + ns mod 1000000000) off name.
Proof. intros Hy. unfold new_date. rewrite time_date_spec by exact Hy. cbv zeta. rewrite fixed_resolve. reflexivity. Qed.

Lemma clock_civil c off : civil_ok c ->
  (clock (cy c) (cmo c) (cd c) (ch c) (cmi c) (cs c) (cms c * 1000000) - off) * 1000000000 +
    (cms c * 1000000) mod 1000000000 = instant c off.
Proof.
  intros (Hy & Hmo & Hd & Hh & Hmi & Hs & Hms). unfold clock, month_start, instant.
  rewrite (Z.div_small (cmo c - 1)), (Z.mod_small (cmo c - 1)) by lia.
  rewrite (Z.div_small (cms c * 1000000)), (Z.mod_small (cms c * 1000000)) by lia.
  replace (cy c + 0) with (cy c) by lia. replace (cmo c - 1 + 1) with (cmo c) by lia.
  unfold day_number. lia.
Qed.

Lemma civil_year c : civil_ok c -> 0 <= cy c + (cmo c - 1) / 12.
Proof. intros (Hy & Hmo & _). rewrite Z.div_small by lia. lia. Qed.

Lemma new_date_gmt_civil c : civil_ok c ->
  new_date_gmt (cy c) (cmo c) (cd c) (ch c) (cmi c) (cs c) (cms c * 1000000) = mkTime (instant c 0) 0 (bs "GMT").
Proof.
  intros Hc. unfold new_date_gmt, gmt.
  rewrite (new_date_fixed _ _ _ _ _ _ _ (bs "GMT") 0 (civil_year c Hc)), clock_civil by exact Hc. reflexivity.
Qed.

(** In a proper location a time that exists is written with the fields it was made of. *)
Lemma new_date_civil c loc m : proper_location loc m -> civil_ok c ->
  shown loc (clock (cy c) (cmo c) (cd c) (ch c) (cmi c) (cs c) (cms c * 1000000)) ->
  let t := new_date (cy c) (cmo c) (cd c) (ch c) (cmi c) (cs c) (cms c * 1000000) loc in
  t_ns t = instant c (t_off t) /\ exists x z, date_string t = x ++ "["%char :: z ++ "]"%char :: [] /\ date_text c x.
Proof.
  intros Hp Hc Hs. cbv zeta.
  destruct (new_date_clock _ _ _ _ _ _ _ _ _ Hp (civil_year c Hc) Hs) as (H1 & H2 & _ & _).
  set (t := new_date _ _ _ _ _ _ _ _) in *. clearbody t.
  assert (E : t_ns t = instant c (t_off t)).
  { rewrite <- (clock_civil c (t_off t) Hc), <- H1, <- H2.
    pose proof (Z.div_mod (t_ns t) 1000000000 ltac:(lia)). lia. }
  split; [exact E|]. exists (format_ms t).
  eexists. split.
  - unfold date_string. cbv zeta. rewrite (app_assoc (if t_off t <? 0 then _ else _)), app_assoc. reflexivity.
  - replace t with (mkTime (instant c (t_off t)) (t_off t) (t_zone t)); [apply format_ms_text; exact Hc|].
    destruct t as [n o z]. cbn [t_ns t_off t_zone] in *. rewrite <- E. reflexivity.
Qed.

Lemma gmt_abbreviation : abbreviation 0 (bs "GMT").
Proof.
  split; [repeat constructor; cbn; lia|]. right. left. split; [reflexivity|discriminate].
Qed.

Lemma new_date_gmt_round_trip e c l r : civil_ok c -> ws_run l ->
  date_unmarshal e (l ++ date_string (new_date_gmt (cy c) (cmo c) (cd c) (ch c) (cmi c) (cs c) (cms c * 1000000)) ++ r) =
  Some (new_date_gmt (cy c) (cmo c) (cd c) (ch c) (cmi c) (cs c) (cms c * 1000000)).
Proof.
  intros Hc Hl. rewrite new_date_gmt_civil by exact Hc.
  apply date_round_trip_named; try lia; [exact Hc|exists 0; reflexivity|exact gmt_abbreviation|exact Hl].
Qed.

(** If the time does not exist, one of the offsets in use near it is applied. *)
Lemma resolve_near loc m w : proper_location loc m -> exists j, - m <= j - w <= m /\ resolve loc w = w - zp_off (loc j).
Proof.
  intros (Hin & Hsame & Hoff & Hlen). unfold resolve. pose proof (Hoff w).
  destruct (Z.eqb_spec (zp_off (loc w)) 0) as [E0|_].
  - exists w. split; [lia|]. lia.
  - destruct (outside (loc w) (w - zp_off (loc w))).
    + exists (w - zp_off (loc w)). split; [lia|reflexivity].
    + exists w. split; [lia|reflexivity].
Qed.

Lemma new_date_near y mo d h mi s ns loc m : proper_location loc m -> 0 <= y + (mo - 1) / 12 ->
  let w := clock y mo d h mi s ns in let t := new_date y mo d h mi s ns loc in
  exists j, - m <= j - w <= m /\ t_ns t = (w - zp_off (loc j)) * 1000000000 + ns mod 1000000000 /\
    t_off t = zp_off (loc (t_ns t / 1000000000)) /\ t_zone t = zp_name (loc (t_ns t / 1000000000)).
Proof.
  intros Hp Hy. cbv zeta. unfold new_date. rewrite time_date_spec by exact Hy. cbv zeta. cbn [t_ns t_off t_zone].
  destruct (resolve_near loc m (clock y mo d h mi s ns) Hp) as (j & Hj & E). exists j. split; [exact Hj|].
  rewrite <- E. destruct (ns_split (resolve loc (clock y mo d h mi s ns)) (ns mod 1000000000)) as [E1 E2];
    [apply Z.mod_pos_bound; lia|]. rewrite E1. repeat split; reflexivity.
Qed.
