(** The texts that are accepted as dates. *)
From Coq Require Import Lia ZifyBool ZifyNat ZifyN.
From Verif Require Import GoStr SpecStr SpecNum SpecDate SpecDateText GoStrFacts GoNum GoNumFacts GoRat GoTime
  Types CalFacts TimeFacts DateFacts.
Ltac Zify.zify_post_hook ::= Z.div_mod_to_equations.
Local Open Scope Z_scope.

(** ** Numbers *)

Lemma getnum_true_inv v n r : getnum true v = Some (n, r) -> exists s, num 2 n s /\ v = s ++ r.
Proof.
  destruct v as [|a [|b v]]; cbn [getnum]; try discriminate.
  - destruct (is_digit a); discriminate.
  - destruct (is_digit a) eqn:Ha; [|discriminate]. destruct (is_digit b) eqn:Hb; [|discriminate].
    intros [= <- <-]. exists [a; b]. split; [|reflexivity]. split; [reflexivity|].
    apply digits_iff. cbn [forallb]. rewrite Ha, Hb. split; [reflexivity|].
    unfold dval. cbn [fold_left]. lia.
Qed.

Lemma getnum_false_inv v n r : getnum false v = Some (n, r) -> exists s, (num 1 n s \/ num 2 n s) /\ v = s ++ r.
Proof.
  assert (H1 : forall a, is_digit a = true -> num 1 (digit_val a) [a]).
  { intros a Ha. split; [reflexivity|]. apply digits_iff. cbn [forallb]. rewrite Ha.
    split; [reflexivity|]. unfold dval. cbn [fold_left]. lia. }
  destruct v as [|a [|b v]]; cbn [getnum]; try discriminate.
  - destruct (is_digit a) eqn:Ha; [|discriminate]. intros [= <- <-]. exists [a]. auto.
  - destruct (is_digit a) eqn:Ha; [|discriminate]. destruct (is_digit b) eqn:Hb.
    + intros [= <- <-]. exists [a; b]. split; [right|reflexivity]. split; [reflexivity|].
      apply digits_iff. cbn [forallb]. rewrite Ha, Hb. split; [reflexivity|].
      unfold dval. cbn [fold_left]. lia.
    + intros [= <- <-]. exists [a]. auto.
Qed.

Lemma getnum_one h s r : num 1 h s -> spaced r -> getnum false (s ++ r) = Some (h, r).
Proof.
  intros [Hl Hd] [z ->]. apply digits_iff in Hd as [Hd <-]. destruct s as [|a [|b s]]; try discriminate Hl.
  cbn [forallb] in Hd. rewrite andb_true_r in Hd. cbn [app getnum]. rewrite Hd.
  change (is_digit " ") with false. cbv iota. unfold dval. cbn [fold_left]. reflexivity.
Qed.

Lemma firstn_len {A} n (l : list A) : (n <= length l)%nat -> length (firstn n l) = n.
Proof. intros H. rewrite firstn_length. lia. Qed.

Lemma atoi_digit_inv c s n : is_digit c = true -> time_atoi (c :: s) = Some n -> digits (c :: s) n.
Proof.
  intros Hc H. unfold time_atoi in H.
  rewrite (digit_not c "-"), (digit_not c "+") in H by (exact Hc || (cbn; lia)).
  rewrite parse_udec_spec in H. destruct (_ && _) eqn:E in H; [|discriminate].
  injection H as <-. apply digits_iff. apply andb_true_iff in E. split; [apply E|reflexivity].
Qed.

(** ** The date part of a layout *)

Definition with_ns (c : civil) (ns : Z) : pstate :=
  mkP (cy c) (cmo c) (cd c) (ch c) (cmi c) (cs c) ns false None [].

Lemma year_inv l p v q : parse_chunks (CYear :: l) p v = Some q -> exists y s r, num 4 y s /\ v = s ++ r /\
  parse_chunks l (mkP y (p_month p) (p_day p) (p_hour p) (p_min p) (p_sec p) (p_ns p) (p_utc p) (p_off p) (p_name p)) r = Some q.
Proof.
  cbn [parse_chunks parse_chunk]. destruct v as [|c v]; [discriminate|].
  destruct (Nat.ltb (length (c :: v)) 4 || negb (is_digit c)) eqn:E; [discriminate|].
  apply orb_false_iff in E as [El Ec]. apply Nat.ltb_ge in El. apply negb_false_iff in Ec.
  destruct (time_atoi (firstn 4 (c :: v))) as [y|] eqn:Ea; [|discriminate]. intros H.
  exists y, (firstn 4 (c :: v)), (skipn 4 (c :: v)). split; [|split; [symmetry; apply firstn_skipn|exact H]].
  split; [apply firstn_len, El|]. cbn [firstn] in *. apply (atoi_digit_inv c _ y Ec Ea).
Qed.

Lemma month_inv l p v q : parse_chunks (CMonth :: l) p v = Some q -> exists m s r, num 2 m s /\ v = s ++ r /\ 1 <= m <= 12 /\
  parse_chunks l (mkP (p_year p) m (p_day p) (p_hour p) (p_min p) (p_sec p) (p_ns p) (p_utc p) (p_off p) (p_name p)) r = Some q.
Proof.
  cbn [parse_chunks parse_chunk]. destruct (getnum true v) as [[m r]|] eqn:E; [|discriminate].
  apply getnum_true_inv in E as [s [Hs ->]]. destruct (_ || _) eqn:Eb; [discriminate|]. intros H.
  exists m, s, r. repeat split; try assumption; try apply Hs; lia.
Qed.

Lemma day_inv l p v q : parse_chunks (CDay :: l) p v = Some q -> exists d s r, num 2 d s /\ v = s ++ r /\
  parse_chunks l (mkP (p_year p) (p_month p) d (p_hour p) (p_min p) (p_sec p) (p_ns p) (p_utc p) (p_off p) (p_name p)) r = Some q.
Proof.
  cbn [parse_chunks parse_chunk]. destruct (getnum true v) as [[m r]|] eqn:E; [|discriminate].
  apply getnum_true_inv in E as [s [Hs ->]]. intros H. exists m, s, r. auto.
Qed.

Lemma hour_inv l p v q : parse_chunks (CHour :: l) p v = Some q -> exists h s r, (num 1 h s \/ num 2 h s) /\ v = s ++ r /\ h <= 23 /\
  parse_chunks l (mkP (p_year p) (p_month p) (p_day p) h (p_min p) (p_sec p) (p_ns p) (p_utc p) (p_off p) (p_name p)) r = Some q /\
  (num 1 h s -> match r with c :: _ => is_digit c = false | [] => True end).
Proof.
  cbn [parse_chunks parse_chunk]. destruct (getnum false v) as [[m r]|] eqn:E; [|discriminate].
  destruct (_ || _) eqn:Eb; [discriminate|]. intros H.
  assert (Hd : forall s, num 1 m s -> v = s ++ r -> match r with c :: _ => is_digit c = false | [] => True end).
  { intros s [Hl _] ->. destruct s as [|a [|? ?]]; try discriminate Hl. cbn [app getnum] in E.
    destruct (is_digit a); [|discriminate]. destruct r as [|c r]; [exact I|].
    destruct (is_digit c) eqn:Ec; [|reflexivity]. injection E as _ E. apply (f_equal (@length ascii)) in E. cbn [length] in E. lia. }
  apply getnum_false_inv in E as [s [Hs Hv]].
  exists m, s, r. split; [exact Hs|]. split; [exact Hv|]. split; [lia|]. split; [exact H|].
  intros H1. apply (Hd s H1 Hv).
Qed.

Lemma minute_inv l p v q : parse_chunks (CMinute :: l) p v = Some q -> exists m s r, num 2 m s /\ v = s ++ r /\ m <= 59 /\
  parse_chunks l (mkP (p_year p) (p_month p) (p_day p) (p_hour p) m (p_sec p) (p_ns p) (p_utc p) (p_off p) (p_name p)) r = Some q.
Proof.
  cbn [parse_chunks parse_chunk]. destruct (getnum true v) as [[m r]|] eqn:E; [|discriminate].
  apply getnum_true_inv in E as [s [Hs ->]]. destruct (_ || _) eqn:Eb; [discriminate|]. intros H.
  exists m, s, r. repeat split; try assumption; try apply Hs; lia.
Qed.

(** A run of digits. *)
Lemma digit_run_split s : exists ds r, s = ds ++ r /\ digit_run s = length ds /\ forallb is_digit ds = true /\
  match r with c :: _ => is_digit c = false | [] => True end.
Proof.
  induction s as [|c s [ds [r [-> [Hl [Hd Hr]]]]]]; [exists [], []; auto|].
  cbn [digit_run]. destruct (is_digit c) eqn:Ec.
  - exists (c :: ds), r. cbn [length forallb app]. rewrite Ec, Hl, Hd. auto.
  - exists [], (c :: ds ++ r). auto.
Qed.

Lemma mark_iff c : comma_or_period c = true <-> decimal_mark c.
Proof. unfold comma_or_period, decimal_mark. rewrite orb_true_iff, !Ascii.eqb_eq. reflexivity. Qed.

(** The first nine of some digits. *)
Lemma digits_head ds : forallb is_digit ds = true -> digits (firstn 9 ds) (dval (firstn 9 ds)) /\
  digits (skipn 9 ds) (dval (skipn 9 ds)) /\ (length (firstn 9 ds) <= 9)%nat /\ (skipn 9 ds = [] \/ length (firstn 9 ds) = 9%nat).
Proof.
  intros H. rewrite <- (firstn_skipn 9 ds), forallb_app in H. apply andb_true_iff in H as [H1 H2].
  split; [apply digits_iff; auto|]. split; [apply digits_iff; auto|]. rewrite firstn_length. split; [lia|].
  destruct (Nat.le_gt_cases (length ds) 9) as [Hl|Hl]; [left; apply skipn_all2; lia|right; lia].
Qed.

Lemma nanos_digits sep ds r : decimal_mark sep -> forallb is_digit ds = true -> ds <> [] ->
  parse_nanos (sep :: ds ++ r) (1 + length ds) = Some (dval (firstn 9 ds) * 10 ^ (9 - Z.of_nat (length (firstn 9 ds)))).
Proof.
  intros Hs Hd Hne. apply mark_iff in Hs. cbn [parse_nanos]. rewrite Hs.
  assert (Hf : firstn (Nat.min (1 + length ds) 10 - 1) (ds ++ r) = firstn 9 ds).
  { rewrite firstn_app. replace (Nat.min (1 + length ds) 10 - 1 - length ds)%nat with 0%nat by lia.
    rewrite firstn_O, app_nil_r. destruct (Nat.le_gt_cases (length ds) 9) as [Hl|Hl].
    - replace (Nat.min (1 + length ds) 10 - 1)%nat with (length ds) by lia. rewrite firstn_all, firstn_all2 by lia. reflexivity.
    - replace (Nat.min (1 + length ds) 10 - 1)%nat with 9%nat by lia. reflexivity. }
  rewrite Hf. destruct (digits_head ds Hd) as [H1 _]. apply digits_iff in H1 as [H1 _].
  rewrite time_atoi_digits by (exact H1 || (destruct ds; [congruence|discriminate])).
  pose proof (dval_nonneg _ H1). replace (dval (firstn 9 ds) <? 0) with false by lia.
  rewrite firstn_length. do 3 f_equal. lia.
Qed.

(** Seconds in a layout with and without a fraction. *)
Lemma second_frac_inv l p v q : parse_chunks (CSecond :: CFrac3 :: l) p v = Some q ->
  exists s ss ns sf r, num 2 s ss /\ fraction ns sf /\ v = ss ++ sf ++ r /\ s <= 59 /\
  parse_chunks l (mkP (p_year p) (p_month p) (p_day p) (p_hour p) (p_min p) s ns (p_utc p) (p_off p) (p_name p)) r = Some q.
Proof.
  intros H. assert (Hs : exists s ss r, num 2 s ss /\ v = ss ++ r).
  { cbn [parse_chunks parse_chunk] in H. destruct (getnum true v) as [[s r]|] eqn:E; [|discriminate].
    apply getnum_true_inv in E as [ss [Hs ->]]. eauto. }
  destruct Hs as [s [ss [r [Hs ->]]]]. rewrite (parse_second_frac s ss r l p Hs) in H.
  destruct (s <=? 59) eqn:E59; [|discriminate].
  set (p1 := mkP _ _ _ _ _ s _ _ _ _) in H.
  cbn [parse_chunks parse_chunk] in H. destruct (Nat.ltb (length r) 4) eqn:El; [discriminate|].
  apply Nat.ltb_ge in El. destruct r as [|sep [|a [|b [|c r]]]]; cbn [length] in El; try lia.
  cbn [parse_nanos] in H. destruct (comma_or_period sep) eqn:Es; [|discriminate]. apply mark_iff in Es.
  change (Nat.min 4 10 - 1)%nat with 3%nat in H. change (10 ^ (10 - Z.of_nat (Nat.min 4 10))) with 1000000 in H.
  cbn [firstn skipn] in H.
  destruct (time_atoi [a; b; c]) as [ns|] eqn:Ea; [|discriminate].
  destruct (ns <? 0) eqn:En; [discriminate|].
  exists s, ss, (ns * 1000000), [sep; a; b; c], r. split; [exact Hs|].
  split; [|split; [reflexivity|split; [lia|exact H]]].
  clear H. unfold time_atoi in Ea.
  destruct (Ascii.eqb_spec a "-") as [->|Hm].
  { rewrite parse_udec_spec in Ea. destruct (_ && _) eqn:E in Ea; [|discriminate]. cbn [option_map] in Ea.
    injection Ea as <-. apply andb_true_iff in E as [E _]. pose proof (dval_nonneg _ E).
    assert (Hz : dval [b; c] = 0) by lia. rewrite Hz.
    assert (Hbc : [b; c] = bs "00") by (apply dval_inj; [reflexivity|exact E|reflexivity|exact Hz]).
    rewrite Hbc. apply (fraction_minus sep Es). }
  destruct (Ascii.eqb_spec a "+") as [->|Hp].
  { rewrite parse_udec_spec in Ea. destruct (_ && _) eqn:E in Ea; [|discriminate].
    injection Ea as <-. apply andb_true_iff in E as [E _]. apply fraction_plus; [exact Es|].
    split; [reflexivity|]. apply digits_iff. auto. }
  rewrite parse_udec_spec in Ea. destruct (_ && _) eqn:E in Ea; [|discriminate].
  injection Ea as <-. apply andb_true_iff in E as [E _].
  change (1000000) with (10 ^ (9 - Z.of_nat (length [a; b; c]))). change [sep; a; b; c] with (sep :: [a; b; c] ++ []).
  apply (fraction_digits sep [a; b; c] [] _ 0 Es); [apply digits_iff; auto|constructor|discriminate|cbn; lia|auto].
Qed.

Lemma second_inv l p v q : (forall l', l <> CFrac3 :: l') -> p_ns p = 0 -> parse_chunks (CSecond :: l) p v = Some q ->
  exists s ss ns sf r, num 2 s ss /\ fraction ns sf /\ v = ss ++ sf ++ r /\ s <= 59 /\
  parse_chunks l (mkP (p_year p) (p_month p) (p_day p) (p_hour p) (p_min p) s ns (p_utc p) (p_off p) (p_name p)) r = Some q.
Proof.
  intros Hl Hns. cbn [parse_chunks parse_chunk]. destruct (getnum true v) as [[s r]|] eqn:E; [|discriminate].
  apply getnum_true_inv in E as [ss [Hs ->]]. destruct (_ || _) eqn:Eb; [discriminate|].
  assert (H59 : s <= 59) by lia.
  assert (Hplain : match parse_chunks l (mkP (p_year p) (p_month p) (p_day p) (p_hour p) (p_min p) s (p_ns p) (p_utc p) (p_off p) (p_name p)) r with x => x end = Some q ->
    exists s0 ss0 ns sf r0, num 2 s0 ss0 /\ fraction ns sf /\ ss ++ r = ss0 ++ sf ++ r0 /\ s0 <= 59 /\
    parse_chunks l (mkP (p_year p) (p_month p) (p_day p) (p_hour p) (p_min p) s0 ns (p_utc p) (p_off p) (p_name p)) r0 = Some q).
  { intros H. exists s, ss, 0, [], r. rewrite Hns in H. repeat split; try assumption; try apply Hs. constructor. }
  destruct r as [|c1 [|c2 v2]]; [exact Hplain|exact Hplain|].
  destruct (comma_or_period c1 && is_digit c2) eqn:Ec; [|exact Hplain]. clear Hplain.
  apply andb_true_iff in Ec as [E1 E2]. apply mark_iff in E1.
  destruct (digit_run_split v2) as [ds [r [-> [Hr [Hd Hnd]]]]]. rewrite Hr.
  change (2 + length ds)%nat with (1 + length (c2 :: ds))%nat.
  change (c1 :: c2 :: ds ++ r) with (c1 :: (c2 :: ds) ++ r).
  assert (Hd2 : forallb is_digit (c2 :: ds) = true) by (cbn [forallb]; rewrite E2, Hd; reflexivity).
  rewrite (nanos_digits c1 (c2 :: ds) r E1 Hd2) by discriminate.
  intros H. set (ns := dval _ * _) in H.
  assert (H' : parse_chunks l (mkP (p_year p) (p_month p) (p_day p) (p_hour p) (p_min p) s ns (p_utc p) (p_off p) (p_name p)) r = Some q).
  { assert (Hsk : skipn (1 + length (c2 :: ds)) (c1 :: (c2 :: ds) ++ r) = r).
    { change (skipn (length (c2 :: ds)) ((c2 :: ds) ++ r) = r). rewrite skipn_app, skipn_all, Nat.sub_diag. reflexivity. }
    rewrite Hsk in H. destruct l as [|ck l]; [exact H|]. destruct ck; try exact H. exfalso. apply (Hl l). reflexivity. }
  exists s, ss, ns, (c1 :: c2 :: ds), r. split; [exact Hs|]. split; [|split; [reflexivity|split; [exact H59|exact H']]].
  rewrite <- (firstn_skipn 9 (c2 :: ds)). destruct (digits_head _ Hd2) as [A [B [C D]]].
  apply (fraction_digits c1 _ _ _ _ E1 A B); [discriminate|exact C|exact D].
Qed.

(** The layouts of ofxDateFormats followed by the layout of a zone. *)
Lemma formats_inv f zf v q : In f date_formats ->
  parse_chunks (f ++ CSpace :: zf) p_init v = Some q ->
  exists c ns t w, clock_text c ns t /\ hms_ok c = true /\ v = t ++ w /\
    parse_chunks (CSpace :: zf) (with_ns c ns) w = Some q.
Proof.
  intros Hf H. unfold date_formats in Hf.
  assert (Hymd : exists f', f = CYear :: CMonth :: CDay :: f').
  { repeat (destruct Hf as [<-|Hf]; [eexists; reflexivity|]). destruct Hf. }
  destruct Hymd as [f' ->]. cbn [app] in H.
  apply year_inv in H as [y [sy [v1 [Hy [-> H]]]]]. apply month_inv in H as [mo [smo [v2 [Hmo [-> [Hmr H]]]]]].
  apply day_inv in H as [d [sd [v3 [Hd [-> H]]]]].
  cbn [p_year p_month p_day p_hour p_min p_sec p_ns p_utc p_off p_name p_init] in H.
  destruct Hf as [Hf|[Hf|[Hf|[Hf|[Hf|[]]]]]]; injection Hf as <-; cbn [app] in H.
  - apply hour_inv in H as [h [sh [v4 [Hh [-> [Hhr [H H1]]]]]]].
    apply minute_inv in H as [mi [smi [v5 [Hmi [-> [Hmir H]]]]]].
    assert (Hh2 : num 2 h sh).
    { destruct Hh as [Hh|Hh]; [|exact Hh]. specialize (H1 Hh). pose proof (num_digits _ _ _ Hmi) as Hdd.
      destruct Hmi as [Hl _]. destruct smi as [|a smi]; [discriminate|]. cbn [app] in H1. cbn [forallb] in Hdd.
      rewrite H1 in Hdd. discriminate. }
    apply second_frac_inv in H as [s [ss [ns [sf [r [Hs [Hns [-> [Hsr H]]]]]]]]].
    exists (mkCivil y mo d h mi s 0), ns, (sy ++ smo ++ sd ++ sh ++ smi ++ ss ++ sf), r.
    split; [constructor; assumption|]. split; [unfold hms_ok; cbn [cy cmo cd ch cmi cs]; lia|].
    split; [rewrite <- !app_assoc; reflexivity|exact H].
  - apply hour_inv in H as [h [sh [v4 [Hh [-> [Hhr [H H1]]]]]]].
    apply minute_inv in H as [mi [smi [v5 [Hmi [-> [Hmir H]]]]]].
    assert (Hh2 : num 2 h sh).
    { destruct Hh as [Hh|Hh]; [|exact Hh]. specialize (H1 Hh). pose proof (num_digits _ _ _ Hmi) as Hdd.
      destruct Hmi as [Hl _]. destruct smi as [|a smi]; [discriminate|]. cbn [app] in H1. cbn [forallb] in Hdd.
      rewrite H1 in Hdd. discriminate. }
    apply second_inv in H; [|intros l'; discriminate|reflexivity].
    destruct H as [s [ss [ns [sf [r [Hs [Hns [-> [Hsr H]]]]]]]]].
    exists (mkCivil y mo d h mi s 0), ns, (sy ++ smo ++ sd ++ sh ++ smi ++ ss ++ sf), r.
    split; [constructor; assumption|]. split; [unfold hms_ok; cbn [cy cmo cd ch cmi cs]; lia|].
    split; [rewrite <- !app_assoc; reflexivity|exact H].
  - apply hour_inv in H as [h [sh [v4 [Hh [-> [Hhr [H H1]]]]]]].
    apply minute_inv in H as [mi [smi [v5 [Hmi [-> [Hmir H]]]]]].
    assert (Hh2 : num 2 h sh).
    { destruct Hh as [Hh|Hh]; [|exact Hh]. specialize (H1 Hh). pose proof (num_digits _ _ _ Hmi) as Hdd.
      destruct Hmi as [Hl _]. destruct smi as [|a smi]; [discriminate|]. cbn [app] in H1. cbn [forallb] in Hdd.
      rewrite H1 in Hdd. discriminate. }
    exists (mkCivil y mo d h mi 0 0), 0, (sy ++ smo ++ sd ++ sh ++ smi), v5.
    split; [constructor; assumption|]. split; [unfold hms_ok; cbn [cy cmo cd ch cmi cs]; lia|].
    split; [rewrite <- !app_assoc; reflexivity|exact H].
  - apply hour_inv in H as [h [sh [v4 [Hh [-> [Hhr [H H1]]]]]]].
    exists (mkCivil y mo d h 0 0 0), 0, (sy ++ smo ++ sd ++ sh), v4.
    split; [constructor; assumption|]. split; [unfold hms_ok; cbn [cy cmo cd ch cmi cs]; lia|].
    split; [rewrite <- !app_assoc; reflexivity|exact H].
  - exists (mkCivil y mo d 0 0 0 0), 0, (sy ++ smo ++ sd), v3.
    split; [constructor; assumption|]. split; [unfold hms_ok; cbn [cy cmo cd ch cmi cs]; lia|].
    split; [rewrite <- !app_assoc; reflexivity|exact H].
Qed.

(** ** Clock texts *)

Lemma num_fun w w' v v' s : num w v s -> num w' v' s -> v = v'.
Proof. intros [_ H] [_ H']. apply digits_iff in H as [_ <-]. apply digits_iff in H' as [_ <-]. reflexivity. Qed.

Lemma app_len_inj {A} (a b x y : list A) : a ++ x = b ++ y -> length a = length b -> a = b /\ x = y.
Proof.
  revert b. induction a as [|c a IH]; intros [|d b]; cbn [app length]; intros H Hl; try lia; [auto|].
  injection H as <- H. destruct (IH b H) as [-> ->]; [lia|auto].
Qed.

Lemma fraction_fun a b s : fraction a s -> fraction b s -> a = b.
Proof.
  assert (Hne : forall hd tl v (x : ascii) r, digits hd v -> hd <> [] -> hd ++ tl = x :: r -> is_digit x = true).
  { intros hd tl v x r Hd Hn E. apply digits_iff in Hd as [Hd _]. destruct hd as [|c hd]; [congruence|].
    injection E as <- _. cbn [forallb] in Hd. apply andb_true_iff in Hd. apply Hd. }
  intros Ha Hb. inversion Ha as [|sep hd tl v w Hs Hd Ht Hh Hl Htl|sep v s' Hs Hn|sep Hs]; subst.
  - inversion Hb. reflexivity.
  - inversion Hb as [|sep' hd' tl' v' w' Hs' Hd' Ht' Hh' Hl' Htl'|sep' v' s' Hs' Hn'|sep' Hs']; subst.
    + match goal with E : hd' ++ tl' = hd ++ tl |- _ => rename E into Es end.
      assert (El : length hd' = length hd).
      { pose proof (f_equal (@length ascii) Es) as E. rewrite !app_length in E.
        destruct Htl as [-> |H9]; destruct Htl' as [-> |H9']; cbn [length] in E; lia. }
      destruct (app_len_inj hd' hd tl' tl Es El) as [-> _].
      rewrite (num_fun (length hd) (length hd) v v' hd); [reflexivity| |]; split; auto.
    + exfalso. match goal with E : _ = hd ++ tl |- _ => discriminate (Hne _ _ _ _ _ Hd Hh (eq_sym E)) end.
    + exfalso. match goal with E : _ = hd ++ tl |- _ => discriminate (Hne _ _ _ _ _ Hd Hh (eq_sym E)) end.
  - inversion Hb as [|sep' hd' tl' v' w' Hs' Hd' Ht' Hh' Hl' Htl'|sep' v' s'' Hs' Hn'|sep' Hs']; subst.
    + exfalso. match goal with E : hd' ++ tl' = _ |- _ => discriminate (Hne _ _ _ _ _ Hd' Hh' E) end.
    + rewrite (num_fun 2 2 v v' s' Hn Hn'). reflexivity.
  - inversion Hb as [|sep' hd' tl' v' w' Hs' Hd' Ht' Hh' Hl' Htl'|sep' v' s'' Hs' Hn'|sep' Hs']; subst.
    + exfalso. match goal with E : hd' ++ tl' = _ |- _ => discriminate (Hne _ _ _ _ _ Hd' Hh' E) end.
    + reflexivity.
Qed.

Lemma clock_fun c ns c' ns' t : clock_text c ns t -> clock_text c' ns' t -> c = c' /\ ns = ns'.
Proof.
  intros H H'. inversion H; subst; inversion H'; subst;
    match goal with E : _ = _ :> list _ |- _ => rename E into Et | E : _ = _ :> str |- _ => rename E into Et end;
    pose proof (f_equal (@length ascii) Et) as El; rewrite !app_length in El;
    repeat match goal with
      | Hn : num _ _ ?s |- _ => lazymatch goal with _ : length s = _ |- _ => fail | _ => pose proof (proj1 Hn) end
      | Ho : num _ _ _ \/ num _ _ _ |- _ => destruct Ho as [Ho|Ho]
      end; try (exfalso; lia);
    repeat match goal with E : ?a ++ _ = ?b ++ _ |- _ => apply app_len_inj in E as [? ?]; [|congruence] end; subst;
    repeat match goal with
      | Hn : num _ ?a ?s, Hn' : num _ ?b ?s |- _ => tryif constr_eq a b then fail else (pose proof (num_fun _ _ _ _ _ Hn Hn'); subst)
      | Hn : fraction ?a ?s, Hn' : fraction ?b ?s |- _ => tryif constr_eq a b then fail else (pose proof (fraction_fun _ _ _ Hn Hn'); subst)
      end; auto.
Qed.

Lemma clock_chars c ns t : clock_text c ns t -> ~ In " "%char t /\ ~ In "["%char t /\ ~ In "]"%char t /\
  cms c = 0 /\ exists a r, t = a :: r /\ is_digit a = true.
Proof.
  set (ok := fun c => is_digit c || comma_or_period c || Ascii.eqb c "+" || Ascii.eqb c "-").
  assert (Hd : forall s, forallb is_digit s = true -> forallb ok s = true).
  { intros s Hs. rewrite forallb_forall in *. intros x Hx. unfold ok. rewrite (Hs x Hx). reflexivity. }
  assert (Hn : forall w v s, num w v s -> forallb ok s = true) by (intros w v s H; apply Hd, (num_digits w v s H)).
  assert (Hg : forall s v, digits s v -> forallb ok s = true) by (intros s v H; apply Hd; apply digits_iff in H; apply H).
  assert (Hm : forall x, decimal_mark x -> ok x = true).
  { intros x H. apply mark_iff in H. unfold ok. rewrite H, orb_true_r. reflexivity. }
  assert (Hf : forall v s, fraction v s -> forallb ok s = true).
  { intros v s H. destruct H as [|sep hd tl v w Hs H1 H2 _ _ _|sep v s Hs H1|sep Hs]; [reflexivity| | |];
      cbn [forallb]; rewrite ?(Hm _ Hs), ?forallb_app, ?(Hg _ _ H1), ?(Hn _ _ _ H1); cbn [andb]; try reflexivity.
    apply (Hg _ _ H2). }
  assert (Hno : forall s x, forallb ok s = true -> ok x = false -> ~ In x s).
  { intros s x Hs Hx Hin. rewrite forallb_forall in Hs. rewrite (Hs x Hin) in Hx. discriminate. }
  assert (Hhead : forall y sy r, num 4 y sy -> exists a r', sy ++ r = a :: r' /\ is_digit a = true).
  { intros y sy r H. pose proof (num_digits _ _ _ H) as Hdd. destruct H as [Hl _]. destruct sy as [|a sy]; [discriminate|].
    cbn [forallb] in Hdd. apply andb_true_iff in Hdd. exists a, (sy ++ r). split; [reflexivity|apply Hdd]. }
  intros H. assert (Hall : forallb ok t = true /\ cms c = 0 /\ exists a r, t = a :: r /\ is_digit a = true).
  { destruct H; (split; [|split; [reflexivity|eapply Hhead; eassumption]]); rewrite !forallb_app, !andb_true_iff;
      repeat match goal with Ho : num _ _ _ \/ num _ _ _ |- _ => destruct Ho end; repeat split; eauto. }
  destruct Hall as [Hall Hrest]. split; [|split; [|split; [|exact Hrest]]]; apply (Hno t _ Hall); reflexivity.
Qed.

Lemma formats_conv c ns t w zf : clock_text c ns t -> hms_ok c = true -> spaced w ->
  exists f, In f date_formats /\
    parse_chunks (f ++ CSpace :: zf) p_init (t ++ w) = parse_chunks (CSpace :: zf) (with_ns c ns) w.
Proof.
  intros Ht Hok Hw. unfold hms_ok in Hok. rewrite !andb_true_iff in Hok. destruct Hok as [[[[H1 H2] H3] H4] H5].
  destruct Ht; cbn [cy cmo cd ch cmi cs] in *.
  - eexists. split; [right; right; right; right; left; reflexivity|]. cbn [app]. rewrite <- !app_assoc.
    rewrite (parse_year y sy), (parse_month mo smo), (parse_day d sd) by assumption. rewrite H1, H2. reflexivity.
  - eexists. split; [right; right; right; left; reflexivity|]. cbn [app]. rewrite <- !app_assoc.
    rewrite (parse_year y sy), (parse_month mo smo), (parse_day d sd) by assumption. rewrite H1, H2. cbn [andb].
    match goal with Ho : num 1 _ _ \/ _ |- _ => destruct Ho as [Ho|Ho] end.
    + cbn [parse_chunks parse_chunk]. rewrite (getnum_one h sh w) by assumption.
      match goal with Ho : num 1 _ _ |- _ => pose proof (num_range _ _ _ Ho) end.
      replace ((h <? 0) || (24 <=? h)) with false by lia. reflexivity.
    + rewrite (parse_hour h sh) by assumption. rewrite H3. reflexivity.
  - eexists. split; [right; right; left; reflexivity|]. cbn [app]. rewrite <- !app_assoc.
    rewrite (parse_year y sy), (parse_month mo smo), (parse_day d sd) by assumption. rewrite H1, H2. cbn [andb].
    rewrite (parse_hour h sh), H3, (parse_minute mi smi), H4 by assumption. reflexivity.
  - set (q := mkP y mo d h mi 0 0 false None []).
    assert (Hpre : forall l r, parse_chunks (CYear :: CMonth :: CDay :: CHour :: CMinute :: l) p_init (sy ++ smo ++ sd ++ sh ++ smi ++ r) =
        parse_chunks l q r).
    { intros l r. rewrite (parse_year y sy) by assumption. rewrite (parse_month mo smo), H1, H2 by assumption. cbn [andb].
      rewrite (parse_day d sd) by assumption. rewrite (parse_hour h sh), H3 by assumption.
      rewrite (parse_minute mi smi), H4 by assumption.
      cbn [p_year p_month p_day p_hour p_min p_sec p_ns p_utc p_off p_name p_init]. reflexivity. }
    assert (Hq : p_ns q = 0) by reflexivity.
    assert (Hw' : with_ns (mkCivil y mo d h mi s 0) ns =
        mkP (p_year q) (p_month q) (p_day q) (p_hour q) (p_min q) s ns (p_utc q) (p_off q) (p_name q)) by reflexivity.
    rewrite Hw'. clear Hw'. clearbody q.
    match goal with Hf : fraction _ _ |- _ => destruct Hf as [|sep hd tl v v' Hs Hd Htl Hne Hl Hor|sep v s' Hs Hn|sep Hs] end.
    + eexists. split; [right; left; reflexivity|]. cbn [app]. rewrite <- !app_assoc. cbn [app].
      rewrite (Hpre (CSecond :: CSpace :: zf)). clear Hpre.
      rewrite (parse_second_plain s ss w) by assumption. rewrite H5, Hq. reflexivity.
    + eexists. split; [right; left; reflexivity|]. cbn [app]. rewrite <- !app_assoc. cbn [app].
      rewrite (Hpre (CSecond :: CSpace :: zf)). clear Hpre.
      match goal with Hn : num 2 s ss |- _ => pose proof (num_range _ _ _ Hn); rename Hn into Hss end.
      cbn [parse_chunks parse_chunk]. rewrite (getnum_num true s ss _ Hss).
      replace ((s <? 0) || (60 <=? s)) with false by lia.
      apply digits_iff in Hd as [Hd <-]. apply digits_iff in Htl as [Htl <-].
      assert (Hall : forallb is_digit (hd ++ tl) = true) by (rewrite forallb_app, Hd; exact Htl).
      assert (Hfst : firstn 9 (hd ++ tl) = hd).
      { destruct Hor as [-> |H9]; [rewrite app_nil_r; apply firstn_all2, Hl|].
        rewrite <- H9, firstn_app, Nat.sub_diag, firstn_all, firstn_O. apply app_nil_r. }
      destruct (hd ++ tl) as [|c2 ds] eqn:Eds; [destruct hd; [congruence|discriminate]|].
      cbn [app]. pose proof Hall as Hall'. cbn [forallb] in Hall'. apply andb_true_iff in Hall' as [Hc2 Hds].
      rewrite (proj2 (mark_iff sep) Hs), Hc2. cbn [andb].
      rewrite (digit_run_app ds w Hds Hw).
      change (2 + length ds)%nat with (1 + length (c2 :: ds))%nat.
      change (sep :: c2 :: ds ++ w) with (sep :: (c2 :: ds) ++ w).
      rewrite (nanos_digits sep (c2 :: ds) w Hs Hall) by discriminate. rewrite Hfst.
      assert (Hsk : skipn (1 + length (c2 :: ds)) (sep :: (c2 :: ds) ++ w) = w).
      { change (skipn (length (c2 :: ds)) ((c2 :: ds) ++ w) = w). rewrite skipn_app, skipn_all, Nat.sub_diag. reflexivity. }
      rewrite Hsk. reflexivity.
    + eexists. split; [left; reflexivity|]. cbn [app]. rewrite <- !app_assoc. cbn [app].
      rewrite (Hpre (CSecond :: CFrac3 :: CSpace :: zf)). clear Hpre.
      rewrite (parse_second_frac s ss) by assumption. rewrite H5.
      destruct (num2_inv _ _ Hn) as [a [b [-> [Ha [Hb Hv]]]]].
      cbn [app]. change (CFrac3 :: CSpace :: zf) with ([CFrac3] ++ CSpace :: zf).
      cbn [app parse_chunks]. cbn [parse_chunk length Nat.ltb Nat.leb parse_nanos]. rewrite (proj2 (mark_iff sep) Hs).
      change (Nat.min 4 10 - 1)%nat with 3%nat. cbn [firstn skipn].
      assert (Hat : time_atoi ["+"%char; a; b] = Some v).
      { change (time_atoi ["+"%char; a; b]) with (parse_udec [a; b]). destruct Hn as [_ Hd]. apply digits_iff in Hd as [Hd <-].
        apply parse_udec_digits; [exact Hd|discriminate]. }
      rewrite Hat. pose proof (num_range _ _ _ Hn). replace (v <? 0) with false by lia. reflexivity.
    + eexists. split; [left; reflexivity|]. cbn [app]. rewrite <- !app_assoc. cbn [app].
      rewrite (Hpre (CSecond :: CFrac3 :: CSpace :: zf)). clear Hpre.
      rewrite (parse_second_frac s ss) by assumption. rewrite H5.
      change (bs "-00" ++ w) with ("-"%char :: "0"%char :: "0"%char :: w).
      change (CFrac3 :: CSpace :: zf) with ([CFrac3] ++ CSpace :: zf).
      cbn [app parse_chunks]. cbn [parse_chunk length Nat.ltb Nat.leb parse_nanos]. rewrite (proj2 (mark_iff sep) Hs).
      reflexivity.
Qed.

Lemma try_formats_some local fmts zf v r : try_formats local fmts zf v = Some r ->
  exists f, In f fmts /\ time_parse local (f ++ zf) v = Some r.
Proof.
  induction fmts as [|f fmts IH]; cbn [try_formats]; [discriminate|].
  destruct (time_parse local (f ++ zf) v) as [r'|] eqn:E.
  - intros [= ->]. exists f. split; [left; reflexivity|exact E].
  - intros H. destruct (IH H) as [f' [Hf E']]. exists f'. split; [right; exact Hf|exact E'].
Qed.

Lemma try_formats_unique local fmts zf v r f : In f fmts -> time_parse local (f ++ zf) v = Some r ->
  (forall f' r', In f' fmts -> time_parse local (f' ++ zf) v = Some r' -> r' = r) ->
  try_formats local fmts zf v = Some r.
Proof.
  induction fmts as [|g fmts IH]; [intros []|]. cbn [try_formats]. intros Hin Hf Hu.
  destruct (time_parse local (g ++ zf) v) as [r'|] eqn:E.
  - f_equal. apply (Hu g r'); [left; reflexivity|exact E].
  - destruct Hin as [<- |Hin]; [congruence|]. apply (IH Hin Hf). intros f' r' Hf' E'. apply (Hu f' r'); [right; exact Hf'|exact E'].
Qed.

(** A text without spaces before a space. *)
Lemma spaceless_prefix (x : ascii) t w t' w' : ~ In x t -> ~ In x t' -> t ++ x :: w = t' ++ x :: w' -> t = t' /\ w = w'.
Proof.
  revert t'. induction t as [|a t IH]; intros [|a' t'] H H' E; cbn [app] in E.
  - injection E as <-. auto.
  - injection E as <- _. destruct H'. left. reflexivity.
  - injection E as -> _. destruct H. left. reflexivity.
  - injection E as <- E. destruct (IH t') as [-> ->]; [|intros Hin; apply H'; right; exact Hin|exact E|auto].
    intros Hin. apply H. right. exact Hin.
Qed.

Lemma space_spaced l p w q : parse_chunks (CSpace :: l) p w = Some q -> w = [] \/ spaced w.
Proof.
  cbn [parse_chunks parse_chunk]. destruct w as [|c w]; [auto|]. cbn [skip_space].
  destruct (Ascii.eqb_spec c " ") as [-> |]; [|discriminate]. intros _. right. exists w. reflexivity.
Qed.

Lemma try_formats_iff local zf v r : In " "%char v ->
  try_formats local date_formats (CSpace :: zf) v = Some r <->
  exists c ns t w q, clock_text c ns t /\ hms_ok c = true /\ v = t ++ w /\ spaced w /\
    parse_chunks (CSpace :: zf) (with_ns c ns) w = Some q /\ finish local q = Some r.
Proof.
  intros Hv.
  assert (Hinv : forall f r', In f date_formats -> time_parse local (f ++ CSpace :: zf) v = Some r' ->
    exists c ns t w q, clock_text c ns t /\ hms_ok c = true /\ v = t ++ w /\ spaced w /\
    parse_chunks (CSpace :: zf) (with_ns c ns) w = Some q /\ finish local q = Some r').
  { intros f r' Hf H. rewrite time_parse_finish in H.
    destruct (parse_chunks (f ++ CSpace :: zf) p_init v) as [q|] eqn:E; [|discriminate].
    destruct (formats_inv f zf v q Hf E) as [c [ns [t [w [Ht [Hok [-> Hw]]]]]]].
    exists c, ns, t, w, q. split; [exact Ht|]. split; [exact Hok|]. split; [reflexivity|]. split; [|split; [exact Hw|exact H]].
    destruct (space_spaced _ _ _ _ Hw) as [-> |Hsp]; [|exact Hsp].
    rewrite app_nil_r in Hv. destruct (proj1 (clock_chars c ns t Ht) Hv). }
  split.
  - intros H. destruct (try_formats_some _ _ _ _ _ H) as [f [Hf E]]. apply (Hinv f r Hf E).
  - intros [c [ns [t [w [q [Ht [Hok [-> [Hw [Hq Hr]]]]]]]]]].
    destruct (formats_conv c ns t w zf Ht Hok Hw) as [f [Hf E]].
    apply (try_formats_unique local date_formats (CSpace :: zf) _ r f Hf).
    + rewrite time_parse_finish, E, Hq. exact Hr.
    + intros f' r' Hf' E'. destruct (Hinv f' r' Hf' E') as [c' [ns' [t' [w' [q' [Ht' [_ [Ev [[z' ->] [Hq' Hr']]]]]]]]]].
      destruct Hw as [z ->].
      destruct (spaceless_prefix " " t z t' z' (proj1 (clock_chars _ _ _ Ht)) (proj1 (clock_chars _ _ _ Ht')) Ev) as [<- <-].
      destruct (clock_fun _ _ _ _ _ Ht Ht') as [<- <-]. congruence.
Qed.

(** ** The zone *)

Definition zone_parts (h m : Z) (n z : str) : Prop :=
  exists sh sm sn, integer sh h /\ minutes_text m sm /\ name_text n sn /\ z = sh ++ sm ++ sn.

Definition zone_pair (h m : Z) (n : str) : str * list chunk :=
  let zone := " "%char :: fmt_plus_03d h ++ fmt_02d m in
  match n with
  | _ :: _ => (zone ++ " "%char :: n, [CSpace; CNumTZ; CSpace; CTZ])
  | [] => if (h =? 0) && (m =? 0) then (zone ++ bs " GMT", [CSpace; CNumTZ; CSpace; CTZ])
          else (zone, [CSpace; CNumTZ])
  end.

Lemma name_text_suffix n s : name_text n s <-> forallb is_upper n = true /\ s = name_suffix n.
Proof.
  unfold name_text. split.
  - intros [[-> ->]|[Hn [Hu ->]]]; [auto|]. apply upper_letters_forallb in Hu. split; [exact Hu|]. destruct n; [congruence|reflexivity].
  - intros [Hu ->]. destruct n as [|a n]; [left; auto|right]. split; [discriminate|]. split; [apply upper_letters_forallb, Hu|reflexivity].
Qed.

Lemma zone_name_inv s n : zone_name_part s = Some n -> name_text n s.
Proof.
  destruct s as [|c s]; cbn [zone_name_part]; [intros [= <-]; left; auto|].
  destruct (Ascii.eqb_spec c ":") as [-> |]; [|discriminate]. destruct s as [|d s]; [discriminate|].
  destruct (forallb is_upper (d :: s)) eqn:E; [|discriminate]. intros [= <-]. right.
  split; [discriminate|]. split; [apply upper_letters_forallb, E|reflexivity].
Qed.

Lemma zone_match_inv z hours mins n : zone_match z = Some (hours, mins, n) ->
  exists h sn, integer hours h /\ name_text n sn /\
    ((mins = [] /\ z = hours ++ sn) \/ (exists f, num 2 f mins /\ z = hours ++ "."%char :: mins ++ sn)).
Proof.
  unfold zone_match.
  match goal with |- (let '(_, _) := ?X in _) = _ -> _ => destruct X as [sign s1] eqn:Es end.
  assert (Hsign : z = sign ++ s1 /\ (sign = [] \/ sign = ["-"%char] \/ sign = ["+"%char])).
  { destruct z as [|c z]; [injection Es as <- <-; auto|].
    destruct (Ascii.eqb_spec c "+") as [-> |]; [injection Es as <- <-; auto|].
    destruct (Ascii.eqb_spec c "-") as [-> |]; injection Es as <- <-; auto. }
  clear Es. destruct Hsign as [-> Hsign].
  destruct (digit_run_split s1) as [ds [r [-> [Hr [Hd _]]]]]. cbv zeta. rewrite Hr.
  rewrite firstn_app, Nat.sub_diag, firstn_O, app_nil_r, firstn_all, skipn_app, Nat.sub_diag, skipn_all. cbn [app skipn].
  intros H. assert (Hne : ds <> []) by (intros ->; discriminate H).
  assert (Hi : exists h, integer (sign ++ ds) h).
  { assert (Hdd : digits ds (dval ds)) by (apply digits_iff; auto).
    destruct Hsign as [-> |[-> | ->]].
    - exists (dval ds), [], ds, (dval ds). split; [reflexivity|]. split; [exact Hne|]. split; [exact Hdd|]. left. auto.
    - exists (- dval ds), (bs "-"), ds, (dval ds). split; [reflexivity|]. split; [exact Hne|]. split; [exact Hdd|]. right. right. auto.
    - exists (dval ds), (bs "+"), ds, (dval ds). split; [reflexivity|]. split; [exact Hne|]. split; [exact Hdd|]. right. left. auto. }
  destruct Hi as [h Hi]. destruct (length ds) as [|k] eqn:El; [destruct ds; [congruence|discriminate]|].
  assert (Hplain : match zone_name_part r with Some name => Some (sign ++ ds, [], name) | None => None end = Some (hours, mins, n) ->
    exists h sn, integer hours h /\ name_text n sn /\
    ((mins = [] /\ sign ++ ds ++ r = hours ++ sn) \/ (exists f, num 2 f mins /\ sign ++ ds ++ r = hours ++ "."%char :: mins ++ sn))).
  { intros E. destruct (zone_name_part r) as [n'|] eqn:En; [|discriminate]. injection E as <- <- <-.
    apply zone_name_inv in En. exists h, r. split; [exact Hi|]. split; [exact En|]. left. split; [reflexivity|]. apply app_assoc. }
  destruct r as [|c [|c1 [|c2 s3]]]; [exact (Hplain H)|exact (Hplain H)|exact (Hplain H)|].
  destruct (Ascii.eqb c "." && is_digit c1 && is_digit c2) eqn:E; [|exact (Hplain H)]. clear Hplain.
  apply andb_true_iff in E as [E E2]. apply andb_true_iff in E as [E0 E1]. apply Ascii.eqb_eq in E0. subst c.
  destruct (zone_name_part s3) as [n'|] eqn:En; [|discriminate]. injection H as <- <- <-.
  apply zone_name_inv in En. exists h, s3. split; [exact Hi|]. split; [exact En|]. right. exists (dval [c1; c2]).
  split; [|rewrite <- app_assoc; reflexivity]. split; [reflexivity|]. apply digits_iff. split; [|reflexivity].
  cbn [forallb]. rewrite E1, E2. reflexivity.
Qed.

Lemma no_bracket_trim z : ~ In "]"%char z -> trim_right_char "]" z = z.
Proof.
  intros H. rewrite <- (app_nil_r z) at 1. apply (trim_right_char_repeat "]" 0 z).
  intros s' ->. apply H. rewrite in_app_iff. right. left. reflexivity.
Qed.

Lemma date_zone_iff z pr : ~ In "]"%char z ->
  date_zone z = Some pr <-> exists h m n, zone_parts h m n z /\ int64_range h /\ pr = zone_pair h m n.
Proof.
  intros Hb. unfold date_zone. rewrite (no_bracket_trim z Hb). split.
  - destruct (zone_match z) as [[[hours mins] n]|] eqn:E; [|discriminate].
    destruct (zone_match_inv z hours mins n E) as [h0 [sn [Hi0 [Hn Hz]]]].
    destruct (parse_int hours) as [h|] eqn:Eh; [|discriminate]. apply parse_int_iff in Eh as [Hi Hr].
    destruct Hz as [[-> ->]|[f [Hf ->]]].
    + intros H. exists h, 0, n. split; [|split; [exact Hr|]].
      * exists hours, [], sn. split; [exact Hi|]. split; [left; auto|]. split; [exact Hn|reflexivity].
      * unfold zone_pair. destruct n; [destruct ((h =? 0) && (0 =? 0))|]; injection H as <-; reflexivity.
    + pose proof (num_range _ _ _ Hf) as Hfr. change (10 ^ Z.of_nat 2) with 100 in Hfr.
      assert (Hp : parse_int mins = Some f).
      { destruct Hf as [Hl Hd]. apply digits_iff in Hd as [Hd <-]. apply parse_int_digits; [destruct mins; [discriminate|congruence]|exact Hd|lia]. }
      destruct mins as [|a mins]; [destruct Hf; discriminate|]. rewrite Hp, (Z.quot_div_nonneg (f * 60) 100) by lia.
      intros H. exists h, (f * 60 / 100), n. split; [|split; [exact Hr|]].
      * exists hours, ("."%char :: a :: mins), sn. split; [exact Hi|]. split; [right; exists f, (a :: mins); auto|]. split; [exact Hn|reflexivity].
      * unfold zone_pair. destruct n; [destruct ((h =? 0) && (f * 60 / 100 =? 0))|]; injection H as <-; reflexivity.
  - intros [h [m [n [[sh [sm [sn [Hi [Hm [Hn ->]]]]]] [Hr ->]]]]].
    apply name_text_suffix in Hn as [Hu ->].
    assert (Hp : parse_int sh = Some h) by (apply parse_int_iff; auto).
    destruct Hm as [[-> ->]|[f [sf [Hf [-> ->]]]]].
    + cbn [app]. rewrite (zone_match_whole sh h n Hi Hu), Hp. unfold zone_pair.
      destruct n; [|reflexivity]. destruct ((h =? 0) && (0 =? 0)); reflexivity.
    + cbn [app]. rewrite (zone_match_frac sh h f sf n Hi Hf Hu), Hp.
      pose proof (num_range _ _ _ Hf) as Hfr. change (10 ^ Z.of_nat 2) with 100 in Hfr.
      assert (Hpm : parse_int sf = Some f).
      { destruct Hf as [Hl Hd]. apply digits_iff in Hd as [Hd <-]. apply parse_int_digits; [destruct sf; [discriminate|congruence]|exact Hd|lia]. }
      destruct sf as [|a sf]; [destruct Hf; discriminate|]. rewrite Hpm, (Z.quot_div_nonneg (f * 60) 100) by lia.
      unfold zone_pair. destruct n; [|reflexivity]. destruct ((h =? 0) && (f * 60 / 100 =? 0)); reflexivity.
Qed.

Lemma minutes_range m s : minutes_text m s -> 0 <= m <= 59.
Proof.
  intros [[-> _]|[f [sf [Hf [-> _]]]]]; [lia|]. apply num_range in Hf. change (10 ^ Z.of_nat 2) with 100 in Hf. lia.
Qed.

(** ** The zone value *)

Lemma cut_spaces sp x : Forall (eq " "%char) sp -> (forall r, x <> " "%char :: r) -> cut_space (sp ++ x) = x.
Proof.
  intros Hs Hx. induction Hs as [|c sp <- Hs IH].
  - cbn [app]. destruct x as [|c x]; [reflexivity|]. cbn [cut_space]. destruct (Ascii.eqb_spec c " ") as [-> |]; [destruct (Hx x); reflexivity|reflexivity].
  - cbn [app cut_space]. change (Ascii.eqb " " " ") with true. exact IH.
Qed.

Lemma cut_split s : exists sp x, s = sp ++ x /\ Forall (eq " "%char) sp /\ cut_space s = x /\ (forall r, x <> " "%char :: r).
Proof.
  induction s as [|c s [sp [x [-> [Hs [Hc Hx]]]]]]; [exists [], []; repeat split; auto; discriminate|].
  cbn [cut_space]. destruct (Ascii.eqb_spec c " ") as [-> |Hne].
  - exists (" "%char :: sp), x. repeat split; auto.
  - exists [], (c :: sp ++ x). repeat split; auto. intros r [= E _]. congruence.
Qed.

Lemma space_inv l p w q : spaced w -> parse_chunks (CSpace :: l) p w = Some q ->
  exists sp x, w = (sp ++ [" "%char]) ++ x /\ Forall (eq " "%char) sp /\ (forall r, x <> " "%char :: r) /\ parse_chunks l p x = Some q.
Proof.
  intros [z ->] H. cbn [parse_chunks parse_chunk skip_space] in H. change (Ascii.eqb " " " ") with true in H. cbv iota in H.
  cbn [cut_space] in H. change (Ascii.eqb " " " ") with true in H. cbv iota in H.
  destruct (cut_split z) as [sp [x [-> [Hs [Hc Hx]]]]]. rewrite Hc in H. exists sp, x.
  split; [|auto]. change (" "%char :: sp ++ x) with ((" "%char :: sp) ++ x). f_equal. clear -Hs.
  induction Hs as [|c sp <- Hs IH]; [reflexivity|]. cbn [app]. f_equal. exact IH.
Qed.

Lemma space_skip sp l p x : Forall (eq " "%char) sp ->
  parse_chunks (CSpace :: l) p (sp ++ " "%char :: x) = parse_chunks (CSpace :: l) p (" "%char :: x).
Proof.
  intros Hs. destruct Hs as [|c sp <- Hs]; [reflexivity|].
  cbn [app parse_chunks parse_chunk skip_space]. change (Ascii.eqb " " " ") with true. cbv iota.
  cbn [cut_space]. change (Ascii.eqb " " " ") with true. cbv iota.
  assert (E : cut_space (sp ++ " "%char :: x) = cut_space x).
  { induction Hs as [|c sp <- Hs IH]; [reflexivity|]. exact IH. }
  rewrite E. reflexivity.
Qed.

Lemma numtz_inv l p w q : parse_chunks (CNumTZ :: l) p w = Some q ->
  exists sg hh mm sh sm r, w = sg :: sh ++ sm ++ r /\ num 2 hh sh /\ num 2 mm sm /\ hh <= 24 /\ mm <= 60 /\
    ((sg = "+"%char /\ parse_chunks l (with_off p ((hh * 60 + mm) * 60)) r = Some q) \/
     (sg = "-"%char /\ parse_chunks l (with_off p (- ((hh * 60 + mm) * 60))) r = Some q)).
Proof.
  cbn [parse_chunks parse_chunk]. destruct (Nat.ltb (length w) 5) eqn:El; [discriminate|]. apply Nat.ltb_ge in El.
  destruct w as [|sg [|a [|b [|c [|d r]]]]]; cbn [length] in El; try lia.
  cbn [firstn skipn].
  destruct (getnum true [a; b]) as [[hh r1]|] eqn:E1; [|discriminate].
  destruct (getnum true [c; d]) as [[mm r2]|] eqn:E2; [|discriminate].
  apply getnum_true_inv in E1 as [sh [Hh E1]]. apply getnum_true_inv in E2 as [sm [Hm E2]].
  assert (r1 = []) as -> by (apply (f_equal (@length ascii)) in E1; rewrite app_length, (proj1 Hh) in E1; cbn [length] in E1; destruct r1; [reflexivity|cbn [length] in E1; lia]).
  assert (r2 = []) as -> by (apply (f_equal (@length ascii)) in E2; rewrite app_length, (proj1 Hm) in E2; cbn [length] in E2; destruct r2; [reflexivity|cbn [length] in E2; lia]).
  rewrite app_nil_r in E1, E2. subst sh sm.
  destruct (24 <? hh) eqn:E24; [discriminate|]. destruct (60 <? mm) eqn:E60; [discriminate|].
  change (has_prefix (bs "+") (sg :: a :: b :: c :: d :: r)) with (Ascii.eqb "+" sg && true).
  change (has_prefix (bs "-") (sg :: a :: b :: c :: d :: r)) with (Ascii.eqb "-" sg && true).
  rewrite !andb_true_r.
  destruct (Ascii.eqb_spec "+" sg) as [<- |]; [|destruct (Ascii.eqb_spec "-" sg) as [<- |]; [|discriminate]];
    intros H; eexists; exists hh, mm, [a; b], [c; d], r; (split; [reflexivity|]; repeat (split; [assumption || lia|])); [left|right]; auto.
Qed.

Lemma last_space u y u' y' : ~ In " "%char y -> ~ In " "%char y' -> u ++ " "%char :: y = u' ++ " "%char :: y' -> u = u' /\ y = y'.
Proof.
  revert u'. induction u as [|c u IH]; intros [|c' u'] Hy Hy' E; cbn [app] in E.
  - injection E as <-. auto.
  - injection E as _ ->. destruct Hy. rewrite in_app_iff. right. left. reflexivity.
  - injection E as _ <-. destruct Hy'. rewrite in_app_iff. right. left. reflexivity.
  - injection E as <- E. destruct (IH u' Hy Hy' E) as [-> ->]. auto.
Qed.

(** The text of the offset that is handed to time.Parse. *)
Lemma offset_text h m : 0 <= m <= 59 ->
  ~ In " "%char (fmt_plus_03d h ++ fmt_02d m) /\ fmt_plus_03d h ++ fmt_02d m <> [] /\
  (forall sg hh mm sh sm, num 2 hh sh -> num 2 mm sm -> hh <= 24 -> fmt_plus_03d h ++ fmt_02d m = sg :: sh ++ sm ->
     -24 <= h <= 24 /\ (sg = "+"%char -> signed_off h m = (hh * 60 + mm) * 60) /\
     (sg = "-"%char -> signed_off h m = - ((hh * 60 + mm) * 60))).
Proof.
  intros Hm. pose proof (fmt_02d_num m ltac:(lia)) as Hm2.
  assert (Hshape : exists sg s, fmt_plus_03d h = sg :: s /\ forallb is_digit s = true /\ dval s = Z.abs h /\
     sg = (if h <? 0 then "-"%char else "+"%char)).
  { assert (Hp : forall x, 0 <= x -> forallb is_digit (pad0 2 (fmt_nat x)) = true /\ dval (pad0 2 (fmt_nat x)) = x).
    { intros x Hx. unfold pad0. rewrite forallb_app, fmt_nat_digits, dval_repeat0, fmt_nat_dval by exact Hx.
      split; [|reflexivity]. rewrite andb_true_r. apply forallb_forall. intros y Hy. apply repeat_spec in Hy as ->. reflexivity. }
    unfold fmt_plus_03d. destruct (h <? 0) eqn:E.
    - exists "-"%char, (pad0 2 (fmt_nat (- h))). destruct (Hp (- h)) as [A B]; [lia|]. repeat split; auto. lia.
    - exists "+"%char, (pad0 2 (fmt_nat h)). destruct (Hp h) as [A B]; [lia|]. repeat split; auto. lia. }
  destruct Hshape as [sg [s [-> [Hd [Hv Hsg]]]]]. pose proof (num_digits _ _ _ Hm2) as Hmd.
  split; [|split; [discriminate|]].
  - cbn [app In]. rewrite in_app_iff. intros [E|[Hin|Hin]].
    + rewrite Hsg in E. destruct (h <? 0); discriminate E.
    + rewrite forallb_forall in Hd. discriminate (Hd _ Hin).
    + rewrite forallb_forall in Hmd. discriminate (Hmd _ Hin).
  - intros sg' hh mm sh sm Hh Hmm H24 E. injection E as <- E.
    assert (El : length s = length sh).
    { pose proof (f_equal (@length ascii) E) as El. rewrite !app_length, (proj1 Hm2), (proj1 Hh), (proj1 Hmm) in El. rewrite (proj1 Hh). lia. }
    destruct (app_len_inj _ _ _ _ E El) as [-> Esm]. rewrite Esm in Hm2. pose proof (num_fun _ _ _ _ _ Hm2 Hmm) as <-.
    assert (Hhh : hh = Z.abs h) by (destruct Hh as [_ Hh]; apply digits_iff in Hh as [_ <-]; exact Hv).
    unfold signed_off. subst sg. destruct (h <? 0) eqn:E0; (split; [lia|]); split; intros Es; (discriminate || lia).
Qed.

(** One word after spaces. *)
Lemma one_word sp x b y : Forall (eq " "%char) sp -> ~ In " "%char x -> ~ In " "%char y ->
  (sp ++ [" "%char]) ++ x = b ++ " "%char :: y -> Forall (eq " "%char) b /\ x = y.
Proof.
  intros Hs Hx Hy E. rewrite <- app_assoc in E. cbn [app] in E. destruct (last_space _ _ _ _ Hx Hy E) as [<- <-]. auto.
Qed.

Lemma tz_word sg hh mm sh sm : num 2 hh sh -> num 2 mm sm -> (sg = "+"%char \/ sg = "-"%char) -> ~ In " "%char (sg :: sh ++ sm).
Proof.
  intros Hh Hm Hs. pose proof (num_digits _ _ _ Hh) as A. pose proof (num_digits _ _ _ Hm) as B.
  rewrite forallb_forall in A, B. cbn [In]. rewrite in_app_iff. intros [E|[Hin|Hin]].
  - destruct Hs as [-> | ->]; discriminate E.
  - discriminate (A _ Hin).
  - discriminate (B _ Hin).
Qed.

Lemma tail_unnamed p b h m q : 0 <= m <= 59 -> spaced (b ++ [" "%char]) ->
  parse_chunks [CSpace; CNumTZ] p (b ++ " "%char :: fmt_plus_03d h ++ fmt_02d m) = Some q <->
  Forall (eq " "%char) b /\ -24 <= h <= 24 /\ q = with_off p (signed_off h m).
Proof.
  intros Hm Hsp. destruct (offset_text h m Hm) as [Hns [_ Hoff]]. split.
  - intros H. apply space_inv in H as [sp [x [E [Hs [_ H]]]]].
    2:{ destruct Hsp as [z Ez]. destruct b as [|c b]; [eexists; reflexivity|]. injection Ez as -> _. eexists. reflexivity. }
    apply numtz_inv in H as [sg [hh [mm [sh [sm [r [-> [Hh [Hmm [H24 [H60 H]]]]]]]]]]].
    assert (Er : r = []) by (destruct H as [[_ H]|[_ H]]; cbn [parse_chunks] in H; destruct r; [reflexivity|discriminate|reflexivity|discriminate]).
    subst r. rewrite app_nil_r in E.
    assert (Hx : ~ In " "%char (sg :: sh ++ sm)) by (apply (tz_word sg hh mm sh sm Hh Hmm); tauto).
    destruct (one_word sp _ b _ Hs Hx Hns (eq_sym E)) as [Hb Ex].
    destruct (Hoff sg hh mm sh sm Hh Hmm H24 (eq_sym Ex)) as [Hr [Hp Hn]].
    split; [exact Hb|]. split; [exact Hr|]. cbn [parse_chunks] in H.
    destruct H as [[Hsg H]|[Hsg H]]; injection H as <-; [rewrite (Hp Hsg)|rewrite (Hn Hsg)]; reflexivity.
  - intros [Hb [Hh ->]]. rewrite (space_skip b _ p _ Hb).
    pose proof (parse_numtz h m [] [] p Hh ltac:(lia)) as Hp. rewrite app_nil_r in Hp. exact Hp.
Qed.

Lemma skipn_nil_len {A} k (l : list A) : skipn k l = [] -> (length l <= k)%nat.
Proof. intros H. pose proof (skipn_length k l) as E. rewrite H in E. cbn [length] in E. lia. Qed.

Lemma digit_run_full s : (length s <= digit_run s)%nat -> forallb is_digit s = true.
Proof.
  induction s as [|c s IH]; [reflexivity|]. cbn [digit_run length forallb]. destruct (is_digit c); [|lia].
  intros H. apply IH. lia.
Qed.

Lemma upper_run_full s : (length s <= upper_run s)%nat -> forallb is_upper s = true.
Proof.
  induction s as [|c s IH]; [reflexivity|]. cbn [upper_run length forallb]. destruct (is_upper c); [|lia].
  intros H. apply IH. lia.
Qed.

Lemma signed_offset_word r : (length r <= parse_signed_offset r)%nat ->
  r = [] \/ exists c ds, (c = "-"%char \/ c = "+"%char) /\ r = c :: ds /\ forallb is_digit ds = true.
Proof.
  destruct r as [|c ds]; [auto|]. cbn [parse_signed_offset].
  destruct (Ascii.eqb c "-" || Ascii.eqb c "+") eqn:E; [|cbn [length]; lia].
  apply orb_true_iff in E. rewrite !Ascii.eqb_eq in E. intros H. right. exists c, ds. split; [exact E|]. split; [reflexivity|].
  apply digit_run_full. destruct (parse_udec _) as [x|]; [|cbn [length] in H; lia].
  destruct (23 <? x); cbn [length] in H; lia.
Qed.

Lemma ptz_shape n k : parse_time_zone n = Some k -> (length n <= k)%nat ->
  n = bs "ChST" \/ n = bs "MeST" \/
  (exists r, n = bs "GMT" ++ r /\ (r = [] \/ exists c ds, (c = "-"%char \/ c = "+"%char) /\ r = c :: ds /\ forallb is_digit ds = true)) \/
  (exists c ds, (c = "-"%char \/ c = "+"%char) /\ n = c :: ds /\ forallb is_digit ds = true) \/
  (forallb is_upper n = true /\ k = length n /\ has_prefix (bs "GMT") n = false).
Proof.
  unfold parse_time_zone. destruct (Nat.ltb (length n) 3); [discriminate|].
  destruct (has_prefix (bs "ChST") n || has_prefix (bs "MeST") n) eqn:E1.
  { intros [= <-] Hl. apply orb_true_iff in E1 as [E1|E1]; apply has_prefix_spec in E1 as [r ->];
      rewrite app_length in Hl; change (length (bs "ChST")) with 4%nat in Hl; change (length (bs "MeST")) with 4%nat in Hl;
      (destruct r; [|cbn [length] in Hl; lia]); auto. }
  destruct (has_prefix (bs "GMT") n) eqn:E2.
  { intros H Hl. apply has_prefix_spec in E2 as [r ->]. right. right. left. exists r. split; [reflexivity|].
    apply signed_offset_word. change (skipn 3 (bs "GMT" ++ r)) with r in H.
    assert (Hk : k = (3 + parse_signed_offset r)%nat) by (injection H as <-; reflexivity). rewrite app_length in Hl.
    change (length (bs "GMT")) with 3%nat in Hl. lia. }
  destruct (has_prefix (bs "+") n || has_prefix (bs "-") n) eqn:E3.
  { destruct (parse_signed_offset n) as [|j] eqn:Ej; [discriminate|]. intros [= <-] Hl. rewrite <- Ej in Hl.
    apply signed_offset_word in Hl as [-> |[c [ds [Hc [-> Hd]]]]]; [discriminate Ej|].
    right. right. right. left. eauto. }
  intros H Hl. right. right. right. right.
  assert (Hk : upper_run n = k).
  { destruct (upper_run n) as [|[|[|[|[|[|j]]]]]]; try discriminate H.
    - injection H as <-. reflexivity.
    - destruct (_ || _) in H; [injection H as <-; reflexivity|discriminate].
    - destruct (Ascii.eqb _ _) in H; [injection H as <-; reflexivity|discriminate]. }
  assert (Hu : forallb is_upper n = true) by (apply upper_run_full; lia).
  split; [exact Hu|]. split; [rewrite <- Hk; apply upper_run_all, Hu|reflexivity].
Qed.

Lemma ptz_word n k : parse_time_zone n = Some k -> (length n <= k)%nat -> ~ In " "%char n.
Proof.
  intros H Hl. assert (Hds : forall ds, forallb is_digit ds = true -> ~ In " "%char ds).
  { intros ds Hd Hin. rewrite forallb_forall in Hd. discriminate (Hd _ Hin). }
  destruct (ptz_shape n k H Hl) as [-> |[-> |[[r [-> Hr]]|[[c [ds [Hc [-> Hd]]]]|[Hu _]]]]].
  - vm_compute. intuition discriminate.
  - vm_compute. intuition discriminate.
  - rewrite in_app_iff. intros [Hin|Hin]; [vm_compute in Hin; intuition discriminate|].
    destruct Hr as [-> |[c [ds [Hc [-> Hd]]]]]; [destruct Hin|]. destruct Hin as [E|Hin]; [subst c; destruct Hc; discriminate|].
    exact (Hds ds Hd Hin).
  - intros [E|Hin]; [subst c; destruct Hc; discriminate|]. exact (Hds ds Hd Hin).
  - intros Hin. rewrite forallb_forall in Hu. discriminate (Hu _ Hin).
Qed.

Lemma ptz_abbr n k : parse_time_zone n = Some k -> (length n <= k)%nat -> forallb is_upper n = true ->
  has_prefix (bs "UTC") n = false -> abbreviation 0 n.
Proof.
  intros H Hl Hu Hutc. assert (Hne : n <> bs "UTC") by (intros ->; discriminate Hutc).
  assert (Hno : forall c ds, (c = "-"%char \/ c = "+"%char) -> forallb is_upper (c :: ds) = true -> False).
  { intros c ds [-> | ->] E; discriminate E. }
  split; [apply upper_letters_forallb, Hu|]. right.
  destruct (ptz_shape n k H Hl) as [-> |[-> |[[r [-> Hr]]|[[c [ds [Hc [-> Hd]]]]|[_ [Hk Hg]]]]]].
  - discriminate Hu.
  - discriminate Hu.
  - destruct Hr as [-> |[c [ds [Hc [-> Hd]]]]]; [left; split; [reflexivity|discriminate]|].
    rewrite forallb_app in Hu. apply andb_true_iff in Hu as [_ Hu]. destruct (Hno c ds Hc Hu).
  - destruct (Hno c ds Hc Hu).
  - assert (Hp : forall x, has_prefix x n = false -> forall r, n <> x ++ r).
    { intros x Hx r ->. assert (E : has_prefix x (x ++ r) = true) by (apply has_prefix_spec; eauto). congruence. }
    pose proof (upper_run_all n Hu) as Hrun. unfold parse_time_zone in H. rewrite Hrun, Hg in H.
    destruct (Nat.ltb (length n) 3); [discriminate|].
    destruct (has_prefix (bs "ChST") n || has_prefix (bs "MeST") n) eqn:E1.
    { exfalso. apply orb_true_iff in E1 as [E1|E1]; apply has_prefix_spec in E1 as [r ->]; discriminate Hu. }
    destruct (has_prefix (bs "+") n || has_prefix (bs "-") n) eqn:E3.
    { exfalso. apply orb_true_iff in E3 as [E3|E3]; apply has_prefix_spec in E3 as [r ->]; discriminate Hu. }
    destruct n as [|c1 [|c2 [|c3 [|c4 [|c5 [|c6 n]]]]]]; cbn [length] in H; try discriminate H.
    + left. split; [reflexivity|exact Hne].
    + right. split; [|split; apply Hp; assumption]. cbn [nth] in H.
      destruct (Ascii.eqb_spec c4 "T") as [-> |]; [left; split; [reflexivity|exists [c1; c2; c3]; reflexivity]|].
      cbn [orb] in H. destruct (has_prefix (bs "WITA") [c1; c2; c3; c4]) eqn:Ew; [|discriminate].
      right. left. apply has_prefix_spec in Ew as [r Ew]. destruct r; [rewrite app_nil_r in Ew; exact Ew|].
      apply (f_equal (@length ascii)) in Ew. rewrite app_length in Ew. cbn [length] in Ew. change (length (bs "WITA")) with 4%nat in Ew. lia.
    + right. split; [|split; apply Hp; assumption]. cbn [nth] in H.
      destruct (Ascii.eqb_spec c5 "T") as [-> |]; [|discriminate]. right. right. split; [reflexivity|exists [c1; c2; c3; c4]; reflexivity].
Qed.

Lemma abbr_utc : abbreviation 0 (bs "UTC").
Proof. split; [apply upper_letters_forallb; reflexivity|]. left. auto. Qed.

Lemma tz_inv p n q : parse_chunks [CTZ] p n = Some q -> ~ In " "%char n /\ n <> [] /\
  (forallb is_upper n = true -> abbreviation 0 n /\ q = with_name p n).
Proof.
  cbn [parse_chunks parse_chunk]. destruct (has_prefix (bs "UTC") n) eqn:E.
  - apply has_prefix_spec in E as [r ->]. change (skipn 3 (bs "UTC" ++ r)) with r. destruct r; [|discriminate].
    intros [= <-]. split; [vm_compute; intuition discriminate|]. split; [discriminate|]. intros _. split; [exact abbr_utc|reflexivity].
  - destruct (parse_time_zone n) as [k|] eqn:Ek; [|discriminate].
    destruct (skipn k n) eqn:Es; [|discriminate]. apply skipn_nil_len in Es. intros [= <-].
    split; [exact (ptz_word n k Ek Es)|]. split; [intros ->; discriminate Ek|]. intros Hu.
    split; [exact (ptz_abbr n k Ek Es Hu E)|]. unfold with_name.
    destruct (str_eqb_spec n (bs "UTC")) as [-> |]; [discriminate E|]. rewrite firstn_all2 by exact Es. reflexivity.
Qed.

Lemma tail_named p b h m n q : 0 <= m <= 59 -> spaced (b ++ [" "%char]) -> forallb is_upper n = true ->
  parse_chunks [CSpace; CNumTZ; CSpace; CTZ] p (b ++ (" "%char :: fmt_plus_03d h ++ fmt_02d m) ++ " "%char :: n) = Some q <->
  Forall (eq " "%char) b /\ -24 <= h <= 24 /\ abbreviation 0 n /\ q = with_name (with_off p (signed_off h m)) n.
Proof.
  intros Hm Hsp Hu. destruct (offset_text h m Hm) as [Hns [Hne Hoff]]. split.
  - intros H. apply space_inv in H as [sp [x [E [Hs [_ H]]]]].
    2:{ destruct Hsp as [z Ez]. destruct b as [|c b]; [eexists; reflexivity|]. injection Ez as -> _. eexists. reflexivity. }
    apply numtz_inv in H as [sg [hh [mm [sh [sm [r [-> [Hh [Hmm [H24 [H60 H]]]]]]]]]]].
    set (off := if Ascii.eqb sg "+" then (hh * 60 + mm) * 60 else - ((hh * 60 + mm) * 60)).
    assert (Hsg : sg = "+"%char \/ sg = "-"%char) by tauto.
    assert (H' : parse_chunks [CSpace; CTZ] (with_off p off) r = Some q).
    { destruct H as [[-> H]|[-> H]]; exact H. }
    clear H. assert (Hr : spaced r).
    { destruct (space_spaced _ _ _ _ H') as [-> |Hr]; [discriminate H'|exact Hr]. }
    apply (space_inv _ _ _ _ Hr) in H' as [sp2 [x [-> [Hs2 [_ H]]]]].
    apply tz_inv in H as [Hxs [Hxe Hx]].
    assert (Hx5 : ~ In " "%char (sg :: sh ++ sm)) by (apply (tz_word sg hh mm sh sm Hh Hmm Hsg)).
    assert (Hnn : ~ In " "%char n) by (intros Hin; rewrite forallb_forall in Hu; discriminate (Hu _ Hin)).
    assert (E1 : (((sp ++ [" "%char]) ++ (sg :: sh ++ sm)) ++ sp2) ++ " "%char :: x = (b ++ " "%char :: fmt_plus_03d h ++ fmt_02d m) ++ " "%char :: n).
    { rewrite <- !app_assoc. rewrite <- !app_assoc in E. cbn [app] in *. rewrite <- !app_assoc in *. symmetry. exact E. }
    destruct (last_space _ _ _ _ Hxs Hnn E1) as [E2 ->].
    assert (Hsp2 : sp2 = []).
    { destruct sp2 as [|c sp2] using rev_ind; [reflexivity|]. exfalso.
      apply Forall_app in Hs2 as [_ Hc]. apply Forall_inv in Hc. subst c. rewrite app_assoc in E2.
      destruct (last_space _ [] _ _ (fun f => f) Hns E2) as [_ E3]. symmetry in E3. exact (Hne E3). }
    subst sp2. rewrite app_nil_r in E2.
    destruct (one_word sp _ b _ Hs Hx5 Hns E2) as [Hb Ex].
    destruct (Hoff sg hh mm sh sm Hh Hmm H24 (eq_sym Ex)) as [Hrange [Hp Hn]].
    destruct (Hx Hu) as [Habbr ->].
    split; [exact Hb|]. split; [exact Hrange|]. split; [exact Habbr|]. f_equal. f_equal. unfold off.
    destruct Hsg as [-> | ->]; [rewrite (Hp eq_refl)|rewrite (Hn eq_refl)]; reflexivity.
  - intros [Hb [Hh [Ha ->]]]. cbn [app]. rewrite (space_skip b _ p _ Hb). rewrite <- app_assoc.
    rewrite (parse_numtz h m _ _ p Hh) by lia. apply (parse_name 0 n _ Ha).
Qed.

(** ** The whole date *)

Lemma clock_civil c ns t : clock_text c ns t ->
  (civil_ok c <-> hms_ok c = true /\ (cd c <? 1) || (days_in (cmo c) (cy c) <? cd c) = false).
Proof.
  intros H.
  assert (Hr : 0 <= cy c <= 9999 /\ 0 <= cmo c /\ 0 <= cd c /\ 0 <= ch c /\ 0 <= cmi c /\ 0 <= cs c /\ 0 <= cms c <= 999).
  { destruct H; cbn [cy cmo cd ch cmi cs cms];
      repeat match goal with Ho : num _ _ _ \/ num _ _ _ |- _ => destruct Ho | Hn : num _ _ _ |- _ => apply num_range in Hn end;
      change (10 ^ Z.of_nat 4) with 10000 in *; change (10 ^ Z.of_nat 2) with 100 in *;
      change (10 ^ Z.of_nat 1) with 10 in *; lia. }
  unfold civil_ok, hms_ok. split.
  - intros [? [? [? [? [? [? ?]]]]]]. rewrite days_in_month_len by lia. lia.
  - intros [? ?]. rewrite days_in_month_len in * by lia. lia.
Qed.

Lemma go_date_ns c ns off name : civil_ok c -> cms c = 0 ->
  go_date (cy c) (cmo c) (cd c) (ch c) (cmi c) (cs c) ns off name = mkTime (instant c off + ns) off name.
Proof.
  intros [? [? _]] Hms. unfold go_date, instant. rewrite days_of_civil_spec by lia. rewrite Hms. f_equal. unfold sec_ns. lia.
Qed.

Definition named_value (c : civil) (ns off : Z) (n : str) : gotime :=
  if str_eqb n (bs "UTC") then mkTime (instant c 0 + ns) 0 n else mkTime (instant c off + ns) off n.

Lemma finish_named_ns local c ns t off n r : clock_text c ns t -> hms_ok c = true -> n <> [] ->
  finish local (with_name (with_off (with_ns c ns) off) n) = Some r <-> civil_ok c /\ r = named_value c ns off n.
Proof.
  intros Ht Hok Hn. pose proof (clock_civil c ns t Ht) as Hc. destruct (clock_chars c ns t Ht) as [_ [_ [_ [Hms _]]]].
  destruct ((cd c <? 1) || (days_in (cmo c) (cy c) <? cd c)) eqn:E.
  - assert (Hf : finish local (with_name (with_off (with_ns c ns) off) n) = None).
    { apply (finish_bad local c); [exact E| | |]; unfold with_name; destruct (str_eqb n (bs "UTC")); reflexivity. }
    rewrite Hf. split; [discriminate|]. intros [Hok' _]. apply Hc in Hok' as [_ ?]. discriminate.
  - assert (Hcok : civil_ok c) by (apply Hc; auto).
    assert (Hf : finish local (with_name (with_off (with_ns c ns) off) n) = Some (named_value c ns off n)).
    { unfold named_value, with_name. destruct (str_eqb_spec n (bs "UTC")) as [-> |Hne];
        unfold finish, with_off, with_ns; cbn [p_year p_month p_day p_hour p_min p_sec p_ns p_utc p_off p_name]; rewrite E;
        rewrite (go_date_ns c ns _ _ Hcok Hms); [reflexivity|].
      destruct (local _) as [lname loff]. destruct n; [congruence|]. rewrite andb_false_r. reflexivity. }
    rewrite Hf. split; [intros [= <-]; auto|intros [_ ->]; reflexivity].
Qed.

Definition unnamed_value (local : Z -> str * Z) (c : civil) (ns off : Z) : gotime :=
  mkTime (instant c off + ns) off
    (let '(lname, loff) := local ((instant c off + ns) / 1000000000) in if loff =? off then lname else []).

Lemma finish_unnamed_ns local c ns t off r : clock_text c ns t -> hms_ok c = true ->
  finish local (with_off (with_ns c ns) off) = Some r <-> civil_ok c /\ r = unnamed_value local c ns off.
Proof.
  intros Ht Hok. pose proof (clock_civil c ns t Ht) as Hc. destruct (clock_chars c ns t Ht) as [_ [_ [_ [Hms _]]]].
  destruct ((cd c <? 1) || (days_in (cmo c) (cy c) <? cd c)) eqn:E.
  - assert (Hf : finish local (with_off (with_ns c ns) off) = None) by (apply (finish_bad local c); [exact E| | |]; reflexivity).
    rewrite Hf. split; [discriminate|]. intros [Hok' _]. apply Hc in Hok' as [_ ?]. discriminate.
  - assert (Hcok : civil_ok c) by (apply Hc; auto).
    assert (Hf : finish local (with_off (with_ns c ns) off) = Some (unnamed_value local c ns off)).
    { unfold unnamed_value, finish, with_off, with_ns; cbn [p_year p_month p_day p_hour p_min p_sec p_ns p_utc p_off p_name]; rewrite E;
        rewrite (go_date_ns c ns _ _ Hcok Hms). cbn [t_ns]. change sec_ns with 1000000000.
      destruct (local _) as [lname loff]. rewrite andb_true_r. destruct (loff =? off); reflexivity. }
    rewrite Hf. split; [intros [= <-]; auto|intros [_ ->]; reflexivity].
Qed.

(** A clock text in front of a space. *)
Lemma clock_front v z t w : ~ In " "%char t -> spaced w -> v ++ " "%char :: z = t ++ w ->
  exists b, v = t ++ b /\ w = b ++ " "%char :: z /\ spaced (b ++ [" "%char]).
Proof.
  revert v. induction t as [|c t IH]; intros v Ht Hw E; cbn [app] in *.
  - exists v. split; [reflexivity|]. split; [symmetry; exact E|]. subst w. destruct Hw as [z' Hw].
    destruct v as [|c v]; [exists []; reflexivity|]. injection Hw as -> _. eexists. reflexivity.
  - destruct v as [|c' v]; cbn [app] in E.
    + injection E as <- _. destruct Ht. left. reflexivity.
    + injection E as <- E. destruct (IH v) as [b [-> Hb]]; [intros H; apply Ht; right; exact H|exact Hw|exact E|].
      exists b. split; [reflexivity|exact Hb].
Qed.

Lemma spaces_spaced b : Forall (eq " "%char) b -> spaced (b ++ [" "%char]).
Proof. intros [|c b' <- _]; eexists; reflexivity. Qed.

Lemma try_named_iff local v h m n r : 0 <= m <= 59 -> forallb is_upper n = true -> n <> [] ->
  try_formats local date_formats [CSpace; CNumTZ; CSpace; CTZ] (v ++ (" "%char :: fmt_plus_03d h ++ fmt_02d m) ++ " "%char :: n) = Some r <->
  exists c ns t b, clock_text c ns t /\ civil_ok c /\ v = t ++ b /\ Forall (eq " "%char) b /\ -24 <= h <= 24 /\ abbreviation 0 n /\
    r = named_value c ns (signed_off h m) n.
Proof.
  intros Hm Hu Hn. rewrite try_formats_iff by (rewrite in_app_iff; right; left; reflexivity). split.
  - intros [c [ns [t [w [q [Ht [Hok [E [Hw [Hq Hr]]]]]]]]]]. cbn [app] in E.
    destruct (clock_front v _ t w (proj1 (clock_chars c ns t Ht)) Hw E) as [b [-> [-> Hb]]].
    apply (tail_named (with_ns c ns) b h m n q Hm Hb Hu) in Hq as [Hsp [Hh [Ha ->]]].
    apply (finish_named_ns local c ns t _ n r Ht Hok Hn) in Hr as [Hc ->].
    exists c, ns, t, b. auto 10.
  - intros [c [ns [t [b [Ht [Hc [-> [Hb [Hh [Ha ->]]]]]]]]]].
    assert (Hok : hms_ok c = true) by (apply (clock_civil c ns t Ht); exact Hc).
    exists c, ns, t, (b ++ (" "%char :: fmt_plus_03d h ++ fmt_02d m) ++ " "%char :: n), (with_name (with_off (with_ns c ns) (signed_off h m)) n).
    split; [exact Ht|]. split; [exact Hok|]. split; [symmetry; apply app_assoc|].
    split; [destruct Hb as [|x b <- _]; eexists; reflexivity|].
    split; [apply (tail_named (with_ns c ns) b h m n _ Hm (spaces_spaced b Hb) Hu); auto|].
    apply (finish_named_ns local c ns t _ n _ Ht Hok Hn). auto.
Qed.

Lemma try_unnamed_iff local v h m r : 0 <= m <= 59 ->
  try_formats local date_formats [CSpace; CNumTZ] (v ++ " "%char :: fmt_plus_03d h ++ fmt_02d m) = Some r <->
  exists c ns t b, clock_text c ns t /\ civil_ok c /\ v = t ++ b /\ Forall (eq " "%char) b /\ -24 <= h <= 24 /\
    r = unnamed_value local c ns (signed_off h m).
Proof.
  intros Hm. rewrite try_formats_iff by (rewrite in_app_iff; right; left; reflexivity). split.
  - intros [c [ns [t [w [q [Ht [Hok [E [Hw [Hq Hr]]]]]]]]]].
    destruct (clock_front v _ t w (proj1 (clock_chars c ns t Ht)) Hw E) as [b [-> [-> Hb]]].
    apply (tail_unnamed (with_ns c ns) b h m q Hm Hb) in Hq as [Hsp [Hh ->]].
    apply (finish_unnamed_ns local c ns t _ r Ht Hok) in Hr as [Hc ->].
    exists c, ns, t, b. auto 10.
  - intros [c [ns [t [b [Ht [Hc [-> [Hb [Hh ->]]]]]]]]].
    assert (Hok : hms_ok c = true) by (apply (clock_civil c ns t Ht); exact Hc).
    exists c, ns, t, (b ++ " "%char :: fmt_plus_03d h ++ fmt_02d m), (with_off (with_ns c ns) (signed_off h m)).
    split; [exact Ht|]. split; [exact Hok|]. split; [symmetry; apply app_assoc|].
    split; [destruct Hb as [|x b <- _]; eexists; reflexivity|].
    split; [apply (tail_unnamed (with_ns c ns) b h m _ Hm (spaces_spaced b Hb)); auto|].
    apply (finish_unnamed_ns local c ns t _ _ Ht Hok). auto.
Qed.

Lemma signed_zone_offset h m : signed_off h m = zone_offset h m.
Proof. unfold signed_off, zone_offset. destruct (h <? 0); lia. Qed.

(** Outside the brackets and inside. *)
Lemma zone_date local v z r : ~ In "]"%char z ->
  (exists pr, date_zone z = Some pr /\ try_formats local date_formats (snd pr) (v ++ fst pr) = Some r) <->
  exists c ns t b, clock_text c ns t /\ civil_ok c /\ v = t ++ b /\ Forall (eq " "%char) b /\
    zone_value local (fun off => instant c off + ns) z r.
Proof.
  intros Hz. split.
  - intros [pr [Hpr H]]. apply (date_zone_iff z pr Hz) in Hpr as [h [m [n [Hp [_ ->]]]]].
    assert (Hm : 0 <= m <= 59) by (destruct Hp as [? [sm [? [_ [Hm _]]]]]; apply (minutes_range m sm Hm)).
    assert (Hu : forallb is_upper n = true) by (destruct Hp as [? [? [sn [_ [_ [Hn _]]]]]]; apply name_text_suffix in Hn; apply Hn).
    assert (Hnot : -24 <= h <= 24 -> zone_notation h m n z).
    { intros Hh. destruct Hp as [sh [sm [sn [A [B [C D]]]]]]. exists sh, sm, sn. auto. }
    clear Hp. unfold zone_pair in H. destruct n as [|a n].
    + destruct ((h =? 0) && (m =? 0)) eqn:E0; cbn [fst snd] in H.
      * apply andb_true_iff in E0 as [Eh Em]. apply Z.eqb_eq in Eh, Em. subst h m.
        change (bs " GMT") with (" "%char :: bs "GMT") in H.
        apply (try_named_iff local v 0 0 (bs "GMT") r) in H; [|lia|reflexivity|discriminate].
        destruct H as [c [ns [t [b [Ht [Hc [-> [Hb [Hh [_ ->]]]]]]]]]]. exists c, ns, t, b.
        do 4 (split; [assumption || reflexivity|]). apply (zone_gmt local (fun off => instant c off + ns) z (Hnot Hh)).
      * apply (try_unnamed_iff local v h m r Hm) in H as [c [ns [t [b [Ht [Hc [-> [Hb [Hh ->]]]]]]]]].
        exists c, ns, t, b. do 4 (split; [assumption || reflexivity|]). rewrite signed_zone_offset. unfold unnamed_value.
        destruct (local ((instant c (zone_offset h m) + ns) / 1000000000)) as [lname loff] eqn:El.
        apply (zone_unnamed local (fun off => instant c off + ns) h m z lname loff (Hnot Hh)); [|exact El].
        intros [-> ->]. discriminate E0.
    + cbn [fst snd] in H. apply (try_named_iff local v h m (a :: n) r Hm Hu) in H; [|discriminate].
      destruct H as [c [ns [t [b [Ht [Hc [-> [Hb [Hh [Ha ->]]]]]]]]]]. exists c, ns, t, b.
      do 4 (split; [assumption || reflexivity|]). unfold named_value. rewrite signed_zone_offset.
      destruct (str_eqb_spec (a :: n) (bs "UTC")) as [Eu|Hne].
      * rewrite Eu. apply (zone_utc local (fun off => instant c off + ns) h m z). rewrite <- Eu. exact (Hnot Hh).
      * apply (zone_named local (fun off => instant c off + ns) h m (a :: n) z (Hnot Hh)); [discriminate|exact Hne|exact Ha].
  - intros [c [ns [t [b [Ht [Hc [-> [Hb Hv]]]]]]]].
    assert (Hparts : forall h m n s, zone_notation h m n s -> ~ In "]"%char s ->
      -24 <= h <= 24 /\ 0 <= m <= 59 /\ forallb is_upper n = true /\ date_zone s = Some (zone_pair h m n)).
    { intros h m n s [sh [sm [sn [A [Hh [B [C ->]]]]]]] Hs. split; [exact Hh|]. split; [apply (minutes_range m sm B)|].
      split; [apply name_text_suffix in C; apply C|]. apply (date_zone_iff _ _ Hs). exists h, m, n.
      split; [exists sh, sm, sn; auto|]. split; [unfold int64_range; lia|reflexivity]. }
    destruct Hv as [h m n z Hno Hn Hne Ha|h m z Hno|z Hno|h m z lname loff Hno H0 Hl];
      destruct (Hparts _ _ _ _ Hno Hz) as [Hh [Hm [Hu Hdz]]]; (eexists; split; [exact Hdz|]); unfold zone_pair.
    + destruct n as [|a n]; [congruence|]. cbn [fst snd]. apply (try_named_iff local _ h m (a :: n) _ Hm Hu Hn).
      exists c, ns, t, b. do 6 (split; [assumption || reflexivity|]). unfold named_value.
      destruct (str_eqb_spec (a :: n) (bs "UTC")); [congruence|]. rewrite signed_zone_offset. reflexivity.
    + cbn [fst snd bs list_ascii_of_string]. apply (try_named_iff local _ h m (bs "UTC") _ Hm Hu); [discriminate|].
      exists c, ns, t, b. do 6 (split; [assumption || reflexivity || exact abbr_utc|]). reflexivity.
    + change ((0 =? 0) && (0 =? 0)) with true. cbn [fst snd]. change (bs " GMT") with (" "%char :: bs "GMT").
      apply (try_named_iff local _ 0 0 (bs "GMT") _ Hm); [reflexivity|discriminate|].
      exists c, ns, t, b. do 6 (split; [assumption || reflexivity || exact abbreviation_gmt|]). reflexivity.
    + replace ((h =? 0) && (m =? 0)) with false by lia. cbn [fst snd]. apply (try_unnamed_iff local _ h m _ Hm).
      exists c, ns, t, b. do 5 (split; [assumption || reflexivity|]). unfold unnamed_value. rewrite signed_zone_offset, Hl. reflexivity.
Qed.

Lemma plain_date local v r :
  try_formats local date_formats [CSpace; CNumTZ; CSpace; CTZ] (v ++ bs " +0000 GMT") = Some r <->
  exists c ns t b, clock_text c ns t /\ civil_ok c /\ v = t ++ b /\ Forall (eq " "%char) b /\
    r = mkTime (instant c 0 + ns) 0 (bs "GMT").
Proof.
  change (bs " +0000 GMT") with ((" "%char :: fmt_plus_03d 0 ++ fmt_02d 0) ++ " "%char :: bs "GMT").
  rewrite try_named_iff by (lia || reflexivity || discriminate). split.
  - intros [c [ns [t [b [Ht [Hc [-> [Hb [_ [_ ->]]]]]]]]]]. exists c, ns, t, b. auto 10.
  - intros [c [ns [t [b [Ht [Hc [-> [Hb ->]]]]]]]]. exists c, ns, t, b.
    do 6 (split; [assumption || reflexivity || lia || exact abbreviation_gmt|]). reflexivity.
Qed.

Lemma trimmed_no_spaces t b : trimmed (t ++ b) -> Forall (eq " "%char) b -> b = [].
Proof.
  intros [_ H] Hb. destruct b as [|c b] using rev_ind; [reflexivity|]. exfalso.
  apply Forall_app in Hb as [_ Hc]. apply Forall_inv in Hc. subst c.
  apply (H (bs " ") (t ++ b)); [|rewrite app_assoc; reflexivity].
  exists 32%N. split; [|reflexivity]. unfold space_runes. cbn [In]. tauto.
Qed.

Lemma split2_none_inv (c : ascii) s : split2 [c] s = None -> ~ In c s.
Proof.
  unfold split2. destruct (index_of [c] s) eqn:E; [discriminate|]. intros _ Hin.
  apply in_split in Hin as [a [r Hs]]. exact (index_of_none [c] s E a r Hs).
Qed.

Lemma up_to_bracket_iff s u : up_to_bracket s u <-> u = match split2 (bs "]") s with Some (v, _) => v | None => s end.
Proof.
  change (bs "]") with ["]"%char]. unfold up_to_bracket. split.
  - intros [Hu [-> |[r ->]]]; [rewrite split2_none by exact Hu|rewrite split2_char by exact Hu]; reflexivity.
  - destruct (split2 ["]"%char] s) as [[v r]|] eqn:E; intros ->.
    + apply split2_some_char in E as [-> Hv]. split; [exact Hv|]. right. exists r. reflexivity.
    + split; [apply split2_none_inv, E|auto].
Qed.

Theorem date_exact e s t : date_unmarshal e s = Some t <->
  exists u v, up_to_bracket s u /\ trims_to u v /\ date_value (env_local e) v t.
Proof.
  assert (Hcore : forall v, ~ In "]"%char v -> trimmed v ->
    match split2 (bs "[") v with
    | Some (v1, z) => match date_zone z with None => None | Some (zone, zfmt) => try_formats (env_local e) date_formats zfmt (v1 ++ zone) end
    | None => try_formats (env_local e) date_formats [CSpace; CNumTZ; CSpace; CTZ] (v ++ bs " +0000 GMT")
    end = Some t <-> date_value (env_local e) v t).
  { intros v Hv Htr. change (bs "[") with ["["%char].
    destruct (split2 ["["%char] v) as [[v1 z]|] eqn:E.
    - apply split2_some_char in E as [-> Hv1].
      assert (Hz : ~ In "]"%char z) by (intros Hin; apply Hv; rewrite in_app_iff; right; right; exact Hin).
      pose proof (zone_date (env_local e) v1 z t Hz) as Hzd. split.
      + destruct (date_zone z) as [[zone zfmt]|] eqn:Ez; [|discriminate]. intros H.
        destruct (proj1 Hzd (ex_intro _ (zone, zfmt) (conj eq_refl H))) as [c [ns [t' [b [Ht [Hc [-> [Hb Hzv]]]]]]]].
        rewrite <- app_assoc. apply (value_zone (env_local e) c ns t' b z t Ht Hc Hb Hzv).
      + intros H. remember (v1 ++ "["%char :: z) as v eqn:Ev. destruct H as [c ns t' Ht Hc|c ns t' b z' x Ht Hc Hb Hzv].
        * exfalso. apply (proj1 (proj2 (clock_chars c ns t' Ht))). rewrite Ev, in_app_iff. right. left. reflexivity.
        * assert (Hb' : ~ In "["%char (t' ++ b)).
          { rewrite in_app_iff. intros [Hin|Hin]; [exact (proj1 (proj2 (clock_chars c ns t' Ht)) Hin)|].
            rewrite Forall_forall in Hb. discriminate (Hb _ Hin). }
          rewrite app_assoc in Ev. destruct (spaceless_prefix "[" _ _ _ _ Hb' Hv1 Ev) as [<- <-].
          destruct (proj2 Hzd) as [[zone zfmt] [Ez H]]; [exists c, ns, t', b; auto 10|]. rewrite Ez. exact H.
    - pose proof (split2_none_inv _ _ E) as Hno. rewrite plain_date. split.
      + intros [c [ns [t' [b [Ht [Hc [-> [Hb ->]]]]]]]]. rewrite (trimmed_no_spaces t' b Htr Hb), app_nil_r.
        apply (value_plain (env_local e) c ns t' Ht Hc).
      + intros H. destruct H as [c ns t' Ht Hc|c ns t' b z' x Ht Hc Hb Hzv].
        * exists c, ns, t', []. rewrite app_nil_r. auto 10.
        * exfalso. apply Hno. rewrite !in_app_iff. right. right. left. reflexivity. }
  unfold date_unmarshal. cbv zeta. set (u := match split2 (bs "]") s with Some (v, _) => v | None => s end).
  assert (Hu : up_to_bracket s u) by (apply up_to_bracket_iff; reflexivity).
  assert (Ht : trims_to u (trim_space u)) by (apply trim_space_iff; reflexivity).
  assert (Hnb : ~ In "]"%char (trim_space u)).
  { destruct Hu as [Hu _]. intros Hin. apply Hu. destruct Ht as [l [r [_ [_ [-> _]]]]]. rewrite !in_app_iff. auto. }
  assert (Htr : trimmed (trim_space u)) by (destruct Ht as [l [r [_ [_ [_ H]]]]]; exact H).
  rewrite (Hcore (trim_space u) Hnb Htr). split.
  - intros H. exists u, (trim_space u). auto.
  - intros [u' [v [Hu' [Hv H]]]]. apply up_to_bracket_iff in Hu'. fold u in Hu'. subst u'.
    apply trim_space_iff in Hv. subst v. exact H.
Qed.

(** ** What reading determines *)

Lemma fraction_range ns s : fraction ns s -> 0 <= ns < 1000000000.
Proof.
  intros [|sep hd tl v w _ Hd _ _ Hl _|sep v s' _ Hn|sep _]; [lia| |apply num_range in Hn; change (10 ^ Z.of_nat 2) with 100 in Hn; lia|lia].
  apply digits_iff in Hd as [Hd <-]. pose proof (dval_nonneg hd Hd) as H0. pose proof (dval_bound hd Hd) as Hb.
  assert (Hp : 0 < 10 ^ (9 - Z.of_nat (length hd))) by (apply Z.pow_pos_nonneg; lia).
  assert (E : 10 ^ Z.of_nat (length hd) * 10 ^ (9 - Z.of_nat (length hd)) = 1000000000).
  { rewrite <- Z.pow_add_r by lia. replace (Z.of_nat (length hd) + (9 - Z.of_nat (length hd))) with 9 by lia. reflexivity. }
  nia.
Qed.

Lemma clock_range c ns t : clock_text c ns t -> 0 <= ns < 1000000000.
Proof. intros []; try lia. eapply fraction_range. eassumption. Qed.

Lemma date_form e s t : date_unmarshal e s = Some t ->
  exists c ns, civil_ok c /\ cms c = 0 /\ 0 <= ns < 1000000000 /\ t_ns t = instant c (t_off t) + ns /\
    Z.divide 60 (t_off t) /\ -90000 < t_off t < 90000.
Proof.
  intros H. apply date_exact in H as [u [v [_ [_ H]]]].
  assert (Hz : forall h m n z, zone_notation h m n z -> Z.divide 60 (zone_offset h m) /\ -90000 < zone_offset h m < 90000).
  { intros h m n z [sh [sm [sn [_ [Hh [Hm _]]]]]]. apply minutes_range in Hm. unfold zone_offset. destruct (h <? 0) eqn:E.
    - split; [exists (h * 60 - m); lia|lia].
    - split; [exists (h * 60 + m); lia|lia]. }
  assert (H00 : Z.divide 60 0 /\ -90000 < 0 < 90000) by (split; [exists 0; reflexivity|lia]).
  destruct H as [c ns t' Ht Hc|c ns t' b z x Ht Hc Hb Hzv]; exists c, ns; (split; [exact Hc|]);
    (split; [apply (clock_chars c ns t' Ht)|]); (split; [apply (clock_range c ns t' Ht)|]).
  - cbn [t_ns t_off]. split; [reflexivity|exact H00].
  - destruct Hzv; cbn [t_ns t_off]; (split; [reflexivity|]); eauto.
Qed.

Lemma date_string_ms c ns off n : 0 <= ns < 1000000000 -> cms c = 0 ->
  date_string (mkTime (instant c off + ns) off n) =
  date_string (mkTime (instant (mkCivil (cy c) (cmo c) (cd c) (ch c) (cmi c) (cs c) (ns / 1000000)) off) off n).
Proof.
  intros Hns Hms. rewrite !date_string_shape. cbn [t_off t_zone].
  assert (E : format_ms (mkTime (instant c off + ns) off n) =
    format_ms (mkTime (instant (mkCivil (cy c) (cmo c) (cd c) (ch c) (cmi c) (cs c) (ns / 1000000)) off) off n)); [|rewrite E; reflexivity].
  unfold format_ms, local_secs. cbn [t_ns t_off]. unfold instant. cbn [cy cmo cd ch cmi cs cms]. rewrite Hms.
  set (K := day_number _ _ _ * 86400 + _ + _ + _ - off). clearbody K. clear -Hns. change sec_ns with 1000000000.
  set (k := ns / 1000000). assert (Hk : 0 <= k < 1000) by (unfold k; lia).
  assert (E1 : (K * 1000000000 + 0 * 1000000 + ns) / 1000000000 = K) by (clear -Hns; lia).
  assert (E2 : (K * 1000000000 + k * 1000000) / 1000000000 = K) by (clearbody k; clear -Hk; lia).
  assert (E3 : (K * 1000000000 + 0 * 1000000 + ns) mod 1000000000 = ns) by (clear -Hns; lia).
  assert (E4 : (K * 1000000000 + k * 1000000) mod 1000000000 = k * 1000000) by (clearbody k; clear -Hk; lia).
  assert (E5 : k * 1000000 / 1000000 = k) by (apply Z.div_mul; lia). fold k in E5.
  rewrite E1, E2, E3, E4, E5. reflexivity.
Qed.

Definition with_ms (c : civil) (ns : Z) : civil := mkCivil (cy c) (cmo c) (cd c) (ch c) (cmi c) (cs c) (ns / 1000000).

Lemma with_ms_ok c ns : 0 <= ns < 1000000000 -> civil_ok c -> civil_ok (with_ms c ns).
Proof.
  intros Hns [A [B [C [D [E [F _]]]]]]. unfold civil_ok, with_ms. cbn [cy cmo cd ch cmi cs cms].
  repeat (split; [assumption|]). clear -Hns. lia.
Qed.

Lemma with_ms_instant c ns off : cms c = 0 -> instant (with_ms c ns) off = instant c off + ns - (instant c off + ns) mod 1000000.
Proof.
  intros Hms. unfold instant, with_ms. cbn [cy cmo cd ch cmi cs cms]. rewrite Hms.
  generalize (day_number (cy c) (cmo c) (cd c) * 86400 + ch c * 3600 + cmi c * 60 + cs c - off). clear. intros K.
  replace (K * 1000000000 + 0 * 1000000 + ns) with (ns + K * 1000 * 1000000) by lia.
  rewrite Z.mod_add by lia. pose proof (Z.div_mod ns 1000000 ltac:(lia)). lia.
Qed.

Lemma date_reprint e s t : date_unmarshal e s = Some t ->
  Z.divide 180 (t_off t) -> ~ -3600 < t_off t < 0 -> (t_zone t = [] \/ abbreviation (t_off t) (t_zone t)) ->
  exists t', date_unmarshal e (date_string t) = Some t' /\ t_off t' = t_off t /\
    t_ns t' = t_ns t - t_ns t mod 1000000.
Proof.
  intros H Hdiv Hno Hn. destruct (date_form e s t H) as [c [ns [Hc [Hms [Hns [Ht [_ Hb]]]]]]]. clear H.
  destruct t as [tns off n]. cbn [t_ns t_off t_zone] in *.
  assert (Hr : date_unmarshal e (date_string (mkTime tns off n)) =
    Some (mkTime (instant (with_ms c ns) off) off (decoded_zone e (instant (with_ms c ns) off) off n))).
  { rewrite Ht, (date_string_ms c ns off n Hns Hms). fold (with_ms c ns).
    assert (Hx : forall x, date_unmarshal e x = date_unmarshal e ([] ++ x ++ [])) by (intros x; rewrite app_nil_r; reflexivity).
    rewrite Hx. clear Hx. exact (date_round_trip e (with_ms c ns) off n [] [] (with_ms_ok c ns Hns Hc) Hdiv Hb Hno Hn ws_nil). }
  rewrite Hr. eexists. split; [reflexivity|]. cbn [t_off t_ns]. split; [reflexivity|].
  rewrite Ht. apply (with_ms_instant c ns off Hms).
Qed.
