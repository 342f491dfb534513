(** Lemmas about time.Parse and Time.Format (GoTime.v) and the Date part of
    Types.v. *)
From Coq Require Import Lia ZifyBool ZifyNat ZifyN.
From Verif Require Import GoStr SpecStr SpecNum SpecDate GoStrFacts GoNum GoNumFacts GoRat GoTime
  Types CalFacts.
Ltac Zify.zify_post_hook ::= Z.div_mod_to_equations.
Local Open Scope Z_scope.

(** ** Reading fixed width numbers *)

Lemma num2_inv v s : num 2 v s -> exists a b, s = [a; b] /\ is_digit a = true /\ is_digit b = true /\
  v = digit_val a * 10 + digit_val b.
Proof.
  intros [Hl Hd]. apply digits_iff in Hd as [Hd <-].
  destruct s as [|a [|b [|? ?]]]; cbn [length] in Hl; try lia.
  cbn [forallb] in Hd. rewrite !andb_true_iff in Hd. exists a, b. intuition auto.
  unfold dval. cbn [fold_left]. lia.
Qed.

Lemma num_pad w n : 0 <= n < 10 ^ Z.of_nat w -> (0 < w)%nat -> num w n (pad0 w (fmt_nat n)).
Proof.
  intros Hn Hw. split; [apply pad0_length; assumption|].
  apply digits_iff. split; [apply pad0_digits; lia|apply pad0_dval; lia].
Qed.

Lemma num_range w v s : num w v s -> 0 <= v < 10 ^ Z.of_nat w.
Proof.
  intros [Hl Hd]. apply digits_iff in Hd as [Hd <-].
  pose proof (dval_nonneg s Hd). pose proof (dval_bound s Hd). rewrite Hl in *. lia.
Qed.

Lemma num_digits w v s : num w v s -> forallb is_digit s = true.
Proof. intros [_ Hd]. apply digits_iff in Hd. apply Hd. Qed.

Lemma getnum_num fixed v s r : num 2 v s -> getnum fixed (s ++ r) = Some (v, r).
Proof.
  intros H. apply num2_inv in H as [a [b [-> [Ha [Hb ->]]]]].
  cbn [app getnum]. rewrite Ha, Hb. reflexivity.
Qed.

Lemma getnum_nondigit fixed c r : is_digit c = false -> getnum fixed (c :: r) = None.
Proof. intros H. cbn [getnum]. rewrite H. reflexivity. Qed.

Lemma time_atoi_digits s : s <> [] -> forallb is_digit s = true -> time_atoi s = Some (dval s).
Proof.
  intros Hne Hd. unfold time_atoi. destruct s as [|c s]; [congruence|].
  cbn [forallb] in Hd. pose proof Hd as Hd'. apply andb_true_iff in Hd' as [Hc _].
  rewrite (digit_not c "-"), (digit_not c "+") by (exact Hc || (cbn; lia)).
  apply parse_udec_digits; [exact Hd|discriminate].
Qed.

(** ** The date part *)

(** The fields time.Parse has collected after the date part. *)
Definition p_fields (c : civil) : pstate :=
  mkP (cy c) (cmo c) (cd c) (ch c) (cmi c) (cs c) (cms c * 1000000) false None [].

Definition hms_ok (c : civil) : bool :=
  (1 <=? cmo c) && (cmo c <=? 12) && (ch c <=? 23) && (cmi c <=? 59) && (cs c <=? 59).

(** The end of time.Parse. *)
Definition finish (local : Z -> str * Z) (p : pstate) : option gotime :=
  if (p_day p <? 1) || (days_in (p_month p) (p_year p) <? p_day p) then None
  else
    let at_off off zone := go_date (p_year p) (p_month p) (p_day p) (p_hour p)
                             (p_min p) (p_sec p) (p_ns p) off zone in
    if p_utc p then Some (at_off 0 (bs "UTC"))
    else match p_off p with
         | Some off =>
             let t := at_off off (p_name p) in
             let '(lname, loff) := local (t_ns t / sec_ns) in
             if (loff =? off) && match p_name p with [] => true | _ => false end
             then Some (mkTime (t_ns t) off lname)
             else Some t
         | None => None
         end.

Lemma time_parse_finish local l v :
  time_parse local l v = match parse_chunks l p_init v with None => None | Some p => finish local p end.
Proof. reflexivity. Qed.

(** A zone text starts with a space. *)
Definition spaced (z : str) : Prop := exists z', z = " "%char :: z'.

Lemma parse_year y s r l p : num 4 y s ->
  parse_chunks (CYear :: l) p (s ++ r) =
  parse_chunks l (mkP y (p_month p) (p_day p) (p_hour p) (p_min p) (p_sec p) (p_ns p) (p_utc p)
                      (p_off p) (p_name p)) r.
Proof.
  intros [Hl Hd]. apply digits_iff in Hd as [Hd <-].
  destruct s as [|a [|b [|c [|d [|? ?]]]]]; cbn [length] in Hl; try lia.
  cbn [parse_chunks parse_chunk app length Nat.ltb Nat.leb firstn skipn].
  pose proof Hd as Hd'. cbn [forallb] in Hd'. rewrite !andb_true_iff in Hd'. destruct Hd' as [-> _].
  rewrite time_atoi_digits by (discriminate || exact Hd). cbn [orb negb]. reflexivity.
Qed.

Lemma parse_month m s r l p : num 2 m s ->
  parse_chunks (CMonth :: l) p (s ++ r) =
  if (1 <=? m) && (m <=? 12) then
    parse_chunks l (mkP (p_year p) m (p_day p) (p_hour p) (p_min p) (p_sec p) (p_ns p) (p_utc p)
                      (p_off p) (p_name p)) r
  else None.
Proof.
  intros H. cbn [parse_chunks parse_chunk]. rewrite (getnum_num true m s r H).
  replace ((m <=? 0) || (12 <? m)) with (negb ((1 <=? m) && (m <=? 12))) by lia.
  destruct ((1 <=? m) && (m <=? 12)); reflexivity.
Qed.

Lemma parse_day d s r l p : num 2 d s ->
  parse_chunks (CDay :: l) p (s ++ r) =
  parse_chunks l (mkP (p_year p) (p_month p) d (p_hour p) (p_min p) (p_sec p) (p_ns p) (p_utc p)
                      (p_off p) (p_name p)) r.
Proof. intros H. cbn [parse_chunks parse_chunk]. rewrite (getnum_num true d s r H). reflexivity. Qed.

Lemma parse_hour h s r l p : num 2 h s ->
  parse_chunks (CHour :: l) p (s ++ r) =
  if h <=? 23 then
    parse_chunks l (mkP (p_year p) (p_month p) (p_day p) h (p_min p) (p_sec p) (p_ns p) (p_utc p)
                      (p_off p) (p_name p)) r
  else None.
Proof.
  intros H. pose proof (num_range _ _ _ H) as Hr. cbn [parse_chunks parse_chunk]. rewrite (getnum_num false h s r H).
  replace ((h <? 0) || (24 <=? h)) with (negb (h <=? 23)) by lia.
  destruct (h <=? 23); reflexivity.
Qed.

Lemma parse_minute m s r l p : num 2 m s ->
  parse_chunks (CMinute :: l) p (s ++ r) =
  if m <=? 59 then
    parse_chunks l (mkP (p_year p) (p_month p) (p_day p) (p_hour p) m (p_sec p) (p_ns p) (p_utc p)
                      (p_off p) (p_name p)) r
  else None.
Proof.
  intros H. pose proof (num_range _ _ _ H) as Hr. cbn [parse_chunks parse_chunk]. rewrite (getnum_num true m s r H).
  replace ((m <? 0) || (60 <=? m)) with (negb (m <=? 59)) by lia.
  destruct (m <=? 59); reflexivity.
Qed.

(** Seconds without a fraction in the value. *)
Lemma parse_second_plain x s r l p : num 2 x s -> spaced r ->
  parse_chunks (CSecond :: l) p (s ++ r) =
  if x <=? 59 then
    parse_chunks l (mkP (p_year p) (p_month p) (p_day p) (p_hour p) (p_min p) x (p_ns p) (p_utc p)
                      (p_off p) (p_name p)) r
  else None.
Proof.
  intros H [r' ->]. pose proof (num_range _ _ _ H) as Hr. cbn [parse_chunks parse_chunk].
  rewrite (getnum_num true x s _ H).
  replace ((x <? 0) || (60 <=? x)) with (negb (x <=? 59)) by lia.
  destruct (x <=? 59); cbn [negb]; [|reflexivity].
  destruct r' as [|c r']; reflexivity.
Qed.

(** Seconds followed by a fraction that the layout announces. *)
Lemma parse_second_frac x s r l p : num 2 x s ->
  parse_chunks (CSecond :: CFrac3 :: l) p (s ++ r) =
  if x <=? 59 then
    parse_chunks (CFrac3 :: l) (mkP (p_year p) (p_month p) (p_day p) (p_hour p) (p_min p) x (p_ns p) (p_utc p)
                      (p_off p) (p_name p)) r
  else None.
Proof.
  intros H. pose proof (num_range _ _ _ H) as Hr. cbn [parse_chunks parse_chunk].
  rewrite (getnum_num true x s _ H).
  replace ((x <? 0) || (60 <=? x)) with (negb (x <=? 59)) by lia.
  destruct (x <=? 59); cbn [negb]; [|reflexivity].
  destruct r as [|c1 [|c2 r]]; [reflexivity|reflexivity|].
  destruct (comma_or_period c1 && is_digit c2); reflexivity.
Qed.

Lemma parse_frac_ms ms s r l p : num 3 ms s ->
  parse_chunks (CFrac3 :: l) p ("."%char :: s ++ r) =
  parse_chunks l (mkP (p_year p) (p_month p) (p_day p) (p_hour p) (p_min p) (p_sec p) (ms * 1000000)
                      (p_utc p) (p_off p) (p_name p)) r.
Proof.
  intros H. pose proof (num_range _ _ _ H) as Hr. destruct H as [Hl Hd].
  apply digits_iff in Hd as [Hd <-].
  destruct s as [|a [|b [|c [|? ?]]]]; cbn [length] in Hl; try lia.
  cbn [parse_chunks parse_chunk app length Nat.ltb Nat.leb parse_nanos].
  change (comma_or_period ".") with true. cbv iota.
  change (Nat.min 4 10 - 1)%nat with 3%nat. cbn [firstn skipn].
  rewrite time_atoi_digits by (discriminate || exact Hd).
  replace (dval [a; b; c] <? 0) with false by lia.
  change (10 ^ (10 - Z.of_nat (Nat.min 4 10))) with 1000000. reflexivity.
Qed.

Lemma parse_frac_spaced l p r : spaced r -> parse_chunks (CFrac3 :: l) p r = None.
Proof.
  intros [r' ->]. cbn [parse_chunks parse_chunk].
  destruct (Nat.ltb (length (" "%char :: r')) 4); [reflexivity|]. reflexivity.
Qed.

(** Seconds and a fraction that the layout does not announce. *)
Lemma digit_run_app s r : forallb is_digit s = true -> spaced r ->
  digit_run (s ++ r) = length s.
Proof.
  intros Hs [r' ->]. induction s as [|c s IH]; [reflexivity|].
  cbn [forallb] in Hs. apply andb_true_iff in Hs as [Hc Hs].
  cbn [app digit_run length]. rewrite Hc, (IH Hs). reflexivity.
Qed.

Lemma parse_second_unannounced x s ms sms r l p : num 2 x s -> num 3 ms sms -> spaced r ->
  (forall l', l <> CFrac3 :: l') ->
  parse_chunks (CSecond :: l) p (s ++ "."%char :: sms ++ r) =
  if x <=? 59 then
    parse_chunks l (mkP (p_year p) (p_month p) (p_day p) (p_hour p) (p_min p) x (ms * 1000000) (p_utc p)
                      (p_off p) (p_name p)) r
  else None.
Proof.
  intros H Hms Hr Hl. pose proof (num_range _ _ _ H) as Hx. pose proof (num_range _ _ _ Hms) as Hm.
  cbn [parse_chunks parse_chunk]. rewrite (getnum_num true x s _ H).
  replace ((x <? 0) || (60 <=? x)) with (negb (x <=? 59)) by lia.
  destruct (x <=? 59); cbn [negb]; [|reflexivity].
  destruct Hms as [Hlen Hd]. apply digits_iff in Hd as [Hd Hv].
  destruct sms as [|a [|b [|c [|? ?]]]]; cbn [length] in Hlen; try lia.
  cbn [app]. change (comma_or_period ".") with true.
  pose proof Hd as Hd'. cbn [forallb] in Hd'. rewrite !andb_true_iff in Hd'.
  destruct Hd' as [Ha [Hb [Hc _]]]. rewrite Ha. cbn [andb].
  assert (Hrun : digit_run (b :: c :: r) = 2%nat).
  { change (b :: c :: r) with ([b; c] ++ r).
    rewrite digit_run_app; [reflexivity|cbn [forallb]; rewrite Hb, Hc; reflexivity|exact Hr]. }
  rewrite Hrun. change (2 + 2)%nat with 4%nat.
  assert (Hp : parse_nanos ("."%char :: a :: b :: c :: r) 4 = Some (ms * 1000000)).
  { cbn [parse_nanos]. change (comma_or_period ".") with true. cbv iota.
    change (Nat.min 4 10 - 1)%nat with 3%nat. cbn [firstn].
    rewrite time_atoi_digits by (discriminate || exact Hd). rewrite Hv.
    replace (ms <? 0) with false by lia.
    change (10 ^ (10 - Z.of_nat (Nat.min 4 10))) with 1000000. reflexivity. }
  rewrite Hp. destruct l as [|ck l]; [reflexivity|].
  destruct ck; try reflexivity. exfalso. apply (Hl l). reflexivity.
Qed.

(** Chunks that need a digit fail on a space. *)
Lemma needs_digit ck l p r : In ck [CMonth; CDay; CHour; CMinute; CSecond] -> spaced r ->
  parse_chunks (ck :: l) p r = None.
Proof.
  intros Hin [r' ->].
  repeat (destruct Hin as [<-|Hin]; [reflexivity|]). destruct Hin.
Qed.

(** A space in the layout fails on a digit. *)
Lemma space_on_digit l p s r w v : num (S w) v s -> parse_chunks (CSpace :: l) p (s ++ r) = None.
Proof.
  intros H. pose proof (num_digits _ _ _ H) as Hd. destruct H as [Hl _].
  destruct s as [|c s]; [discriminate|]. cbn [forallb] in Hd. apply andb_true_iff in Hd as [Hc _].
  cbn [app parse_chunks parse_chunk skip_space].
  rewrite (digit_not c " ") by (exact Hc || (cbn; lia)). reflexivity.
Qed.

(** The date part read with all the formats: exactly the format of the text
    applies, and it applies iff the fields are in range. *)
Lemma try_formats_text local c text zone zfmt :
  date_text c text -> spaced zone ->
  try_formats local date_formats (CSpace :: zfmt) (text ++ zone) =
  if hms_ok c then
    match parse_chunks (CSpace :: zfmt) (p_fields c) zone with
    | Some p => finish local p
    | None => None
    end
  else None.
Proof.
  intros Ht Hz. unfold date_formats, hms_ok, p_fields.
  destruct Ht; cbn [cy cmo cd ch cmi cs cms]; cbn [try_formats]; rewrite !time_parse_finish;
    rewrite <- ?app_assoc; cbn [app];
    rewrite <- ?app_assoc;
    repeat (rewrite ?parse_year with (1 := H), ?parse_month with (1 := H0), ?parse_day with (1 := H1);
            cbn [p_year p_month p_day p_hour p_min p_sec p_ns p_utc p_off p_name p_init]).
  - rewrite !needs_digit by (cbn; tauto || exact Hz).
    change (0 <=? 23) with true. change (0 <=? 59) with true. rewrite !andb_true_r.
    destruct ((1 <=? mo) && (mo <=? 12)); [|reflexivity].
    change (0 * 1000000) with 0.
    destruct (parse_chunks (CSpace :: zfmt) _ zone) as [p|]; [destruct (finish local p); reflexivity|reflexivity].
  - rewrite !parse_hour with (1 := H2), !(space_on_digit _ _ _ _ 1 _ H2).
    cbn [p_year p_month p_day p_hour p_min p_sec p_ns p_utc p_off p_name p_init].
    rewrite !needs_digit by (cbn; tauto || exact Hz).
    change (0 <=? 59) with true. rewrite !andb_true_r.
    destruct ((1 <=? mo) && (mo <=? 12)); [|reflexivity]. cbn [andb].
    destruct (h <=? 23); [|reflexivity].
    change (0 * 1000000) with 0.
    destruct (parse_chunks (CSpace :: zfmt) _ zone) as [p|]; [destruct (finish local p); reflexivity|reflexivity].
  - repeat (rewrite ?parse_hour with (1 := H2), ?parse_minute with (1 := H3), ?(space_on_digit _ _ _ _ 1 _ H2), ?(space_on_digit _ _ _ _ 1 _ H3);
      cbn [p_year p_month p_day p_hour p_min p_sec p_ns p_utc p_off p_name p_init]).
    rewrite !needs_digit by (cbn; tauto || exact Hz).
    change (0 <=? 59) with true. rewrite !andb_true_r.
    destruct ((1 <=? mo) && (mo <=? 12)); [|reflexivity]. cbn [andb].
    destruct (h <=? 23); [|reflexivity]. cbn [andb].
    destruct (mi <=? 59); [|reflexivity].
    change (0 * 1000000) with 0.
    destruct (parse_chunks (CSpace :: zfmt) _ zone) as [p|]; [destruct (finish local p); reflexivity|reflexivity].
  - repeat (rewrite ?parse_hour with (1 := H2), ?parse_minute with (1 := H3), ?(space_on_digit _ _ _ _ 1 _ H2), ?(space_on_digit _ _ _ _ 1 _ H3), ?(space_on_digit _ _ _ _ 1 _ H4);
      cbn [p_year p_month p_day p_hour p_min p_sec p_ns p_utc p_off p_name p_init]).
    rewrite !(fun l p => parse_second_plain _ _ _ l p H4 Hz).
    cbn [p_year p_month p_day p_hour p_min p_sec p_ns p_utc p_off p_name p_init].
    rewrite !parse_frac_spaced by exact Hz.
    destruct ((1 <=? mo) && (mo <=? 12)); [|reflexivity]. cbn [andb].
    destruct (h <=? 23); [|reflexivity]. cbn [andb].
    destruct (mi <=? 59); [|reflexivity]. cbn [andb].
    destruct (s <=? 59); [|reflexivity].
    change (0 * 1000000) with 0.
    destruct (parse_chunks (CSpace :: zfmt) _ zone) as [p|]; [destruct (finish local p); reflexivity|reflexivity].
  - repeat (rewrite ?parse_hour with (1 := H2), ?parse_minute with (1 := H3), ?(space_on_digit _ _ _ _ 1 _ H2), ?(space_on_digit _ _ _ _ 1 _ H3), ?(space_on_digit _ _ _ _ 1 _ H4);
      cbn [p_year p_month p_day p_hour p_min p_sec p_ns p_utc p_off p_name p_init]).
    rewrite !(fun l p => parse_second_frac _ _ _ l p H4).
    rewrite !(fun l p Hl => parse_second_unannounced _ _ _ _ _ l p H4 H5 Hz Hl) by (intros l'; discriminate).
    cbn [p_year p_month p_day p_hour p_min p_sec p_ns p_utc p_off p_name p_init].
    rewrite !(fun l p => parse_frac_ms _ _ _ l p H5).
    cbn [p_year p_month p_day p_hour p_min p_sec p_ns p_utc p_off p_name p_init].
    destruct ((1 <=? mo) && (mo <=? 12)); [|reflexivity]. cbn [andb].
    destruct (h <=? 23); [|reflexivity]. cbn [andb].
    destruct (mi <=? 59); [|reflexivity]. cbn [andb].
    destruct (s <=? 59); [|reflexivity].
    destruct (parse_chunks (CSpace :: zfmt) _ zone) as [p|]; [destruct (finish local p); reflexivity|reflexivity].
Qed.
