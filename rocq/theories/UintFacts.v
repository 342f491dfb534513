(** Proofs for C84: exactly which texts -delay accepts. *)
From Coq Require Import QArith Lia ZifyBool ZifyNat ZifyN.
From Verif Require Import GoStr SpecStr GoStrFacts GoRat SpecAmountText AmountTextFacts GoUint.
Local Open Scope Z_scope.

Lemma uint_digit_value c : uint_digit c = if alnum_val c <? 255 then Some (alnum_val c) else None.
Proof. destruct c as [[] [] [] [] [] [] [] []]; vm_compute; reflexivity. Qed.

Lemma bval_mono b ds : 1 <= b -> forall acc, 0 <= acc -> acc <= bval b acc ds.
Proof.
  intros Hb. unfold bval. induction ds as [|c ds IH]; intros acc Ha; cbn [fold_left]; [lia|].
  pose proof (alnum_nonneg c). specialize (IH (acc * b + alnum_val c)). nia.
Qed.

Definition unders (w : str) : bool := existsb (fun c => Ascii.eqb c "_") w.

Lemma uint_run b w : 2 <= b <= 16 -> forall n u, 0 <= n < 2 ^ 64 ->
  uint_loop b n u w =
    if forallb (wch b) w && (bval b n (sepless w) <? 2 ^ 64) then Some (bval b n (sepless w), u || unders w) else None.
Proof.
  intros Hb. induction w as [|c w IH]; intros n u Hn.
  - cbn [uint_loop forallb]. unfold sepless, bval. cbn [filter fold_left]. unfold unders. cbn [existsb].
    replace (n <? 2 ^ 64) with true by lia. rewrite orb_false_r. reflexivity.
  - cbn [uint_loop forallb]. unfold wch at 1, sepless, unders. cbn [filter existsb].
    destruct (Ascii.eqb c "_") eqn:Eu; cbn [negb orb andb].
    + rewrite IH by exact Hn. rewrite orb_true_l, orb_true_r. reflexivity.
    + rewrite uint_digit_value.
      destruct (alnum_val c <? b) eqn:Ed; cbn [andb].
      * replace (alnum_val c <? 255) with true by lia. replace (b <=? alnum_val c) with false by lia.
        pose proof (alnum_nonneg c) as H0.
        unfold bval. cbn [fold_left]. fold (bval b (n * b + alnum_val c) (filter (fun c => negb (Ascii.eqb c "_")) w)).
        fold (sepless w). fold (unders w).
        pose proof (bval_mono b (sepless w) ltac:(lia) (n * b + alnum_val c) ltac:(nia)) as Hm.
        destruct ((2 ^ 64 - 1) / b + 1 <=? n) eqn:E1.
        -- assert (2 ^ 64 - 1 < b * ((2 ^ 64 - 1) / b + 1)) by (pose proof (Z.mul_succ_div_gt (2 ^ 64 - 1) b); lia).
           replace (bval b (n * b + alnum_val c) (sepless w) <? 2 ^ 64) with false by nia. rewrite andb_false_r. reflexivity.
        -- destruct (2 ^ 64 - 1 <? n * b + alnum_val c) eqn:E2.
           ++ replace (bval b (n * b + alnum_val c) (sepless w) <? 2 ^ 64) with false by lia. rewrite andb_false_r. reflexivity.
           ++ apply IH. nia.
      * destruct (alnum_val c <? 255); [|reflexivity]. replace (b <=? alnum_val c) with true by lia. reflexivity.
Qed.

Definition saw_kind (s : seen) : option prev_kind :=
  match s with SawStart => Some PrevOther | SawDigit => Some PrevDigit | SawUnderscore => Some PrevSep | SawOther => None end.

Lemma hex_wch c : wch 16 c = true ->
  (is_digit c || (true && ((97 <=? code (lower_bit c))%N && (code (lower_bit c) <=? 102)%N))) = negb (Ascii.eqb c "_").
Proof. destruct c as [[] [] [] [] [] [] [] []]; vm_compute; intros H; try discriminate H; reflexivity. Qed.

Lemma dec_wch c : wch 10 c = true -> (is_digit c || (false && ((97 <=? code (lower_bit c))%N && (code (lower_bit c) <=? 102)%N))) = negb (Ascii.eqb c "_").
Proof. destruct c as [[] [] [] [] [] [] [] []]; vm_compute; intros H; try discriminate H; reflexivity. Qed.

Lemma underscore_run (hex : bool) w : forall saw p, saw_kind saw = Some p ->
  forallb (wch (if hex then 16 else 10)) w = true -> underscore_loop hex saw w = sep_ok p w.
Proof.
  induction w as [|c w IH]; intros saw p Hs Hw.
  - destruct saw; inversion Hs; subst; reflexivity.
  - cbn [forallb] in Hw. apply andb_true_iff in Hw as [Hc Hw]. cbn [underscore_loop].
    replace (is_digit c || (hex && ((97 <=? code (lower_bit c))%N && (code (lower_bit c) <=? 102)%N))) with (negb (Ascii.eqb c "_"))
      by (symmetry; destruct hex; [apply hex_wch|apply dec_wch]; exact Hc).
    unfold sep_ok, lastk. cbn [badk fold_left]. destruct (Ascii.eqb c "_") eqn:Eu; cbn [negb].
    + destruct saw; inversion Hs; subst; cbn [is_prev_digit negb orb]; try reflexivity. apply (IH SawUnderscore PrevSep eq_refl Hw).
    + apply (IH SawDigit PrevDigit eq_refl Hw).
Qed.

Lemma wch_more a b w : a <= b -> forallb (wch a) w = true -> forallb (wch b) w = true.
Proof.
  intros Hab. induction w as [|c w IH]; [reflexivity|]. cbn [forallb]. rewrite !andb_true_iff. intros [Hc Hw]. split; [|auto].
  unfold wch in *. apply orb_true_iff in Hc as [->|Hc]; [reflexivity|]. apply orb_true_iff. right. lia.
Qed.

Lemma no_unders p w : p <> PrevSep -> unders w = false -> sep_ok p w = true.
Proof.
  unfold sep_ok. intros Hp Hu.
  assert (forall p, p <> PrevSep -> unders w = false -> badk p w = false /\ is_prev_sep (lastk p w) = false) as H.
  { clear. induction w as [|c w IH]; intros p Hp Hu; [split; [reflexivity|]; destruct p; try reflexivity; congruence|].
    unfold unders in *. cbn [existsb] in Hu. apply orb_false_iff in Hu as [Hc Hu]. unfold lastk. cbn [badk fold_left]. rewrite Hc.
    apply (IH PrevDigit); [discriminate|exact Hu]. }
  destruct (H p Hp Hu) as [-> ->]. reflexivity.
Qed.

(** The number is accepted if its digits fit the base, the underscores are in
    place and it is not too large. *)
Definition fits (b : Z) (p : prev_kind) (w : str) (n : Z) : Prop :=
  forallb (wch b) w = true /\ sep_ok p w = true /\ n = bval b 0 (sepless w) /\ n < 2 ^ 64.

Lemma uint_fits s b w p n : s <> [] -> uint_base s = (b, w) -> 2 <= b <= 16 -> p <> PrevSep ->
  (forallb (wch b) w = true -> underscore_ok s = sep_ok p w) ->
  (parse_uint64 s = Some n <-> fits b p w (Z.of_N n)).
Proof.
  intros Hne Hb Hr Hp Hu. unfold parse_uint64. destruct s as [|c s]; [congruence|]. rewrite Hb.
  rewrite uint_run by lia. cbn [orb]. pose proof (bval_mono b (sepless w) ltac:(lia) 0 ltac:(lia)) as H0. unfold fits.
  destruct (forallb (wch b) w) eqn:Ew; cbn [andb]; [|split; [discriminate|intros (X & _); discriminate X]].
  rewrite (Hu eq_refl).
  destruct (bval b 0 (sepless w) <? 2 ^ 64) eqn:El.
  - destruct (unders w) eqn:Eu; cbn [andb].
    + destruct (sep_ok p w); cbn [negb]; [|split; [discriminate|intros (_ & X & _); discriminate X]].
      split; [intros H; injection H as <-; repeat split; lia|intros (_ & _ & H & _); f_equal; lia].
    + rewrite (no_unders p w Hp Eu).
      split; [intros H; injection H as <-; repeat split; lia|intros (_ & _ & H & _); f_equal; lia].
  - split; [discriminate|]. intros (_ & _ & H & H'). lia.
Qed.

Lemma lower_bit_is d : 
  Ascii.eqb (lower_bit d) "b" = (Ascii.eqb d "b" || Ascii.eqb d "B") /\
  Ascii.eqb (lower_bit d) "o" = (Ascii.eqb d "o" || Ascii.eqb d "O") /\
  Ascii.eqb (lower_bit d) "x" = (Ascii.eqb d "x" || Ascii.eqb d "X").
Proof. destruct d as [[] [] [] [] [] [] [] []]; vm_compute; repeat split. Qed.

Lemma uint_prefixed b p t n : base_prefix b p -> t <> [] -> (parse_uint64 (p ++ t) = Some n <-> fits b PrevDigit t (Z.of_N n)).
Proof.
  intros Hp Ht. apply uint_fits; [destruct Hp; discriminate| | |discriminate|].
  - destruct t as [|c t]; [congruence|]. destruct Hp; reflexivity.
  - apply prefix_base in Hp. lia.
  - intros Hw. destruct Hp; cbn [app bs list_ascii_of_string];
      match goal with |- underscore_ok ?s = _ => change (underscore_ok s) with (underscore_loop (b =? 16) SawDigit t) || idtac end;
      unfold underscore_ok; cbn [Ascii.eqb Bool.eqb orb];
      first [exact (underscore_run true t SawDigit PrevDigit eq_refl Hw)
            |apply (underscore_run false t SawDigit PrevDigit eq_refl); eapply wch_more; [|exact Hw]; lia].
Qed.

Lemma uint_octal s n : prefixb ("0"%char :: s) = false -> (parse_uint64 ("0"%char :: s) = Some n <-> fits 8 PrevDigit s (Z.of_N n)).
Proof.
  intros Hp. apply uint_fits; [discriminate| |lia|discriminate|].
  - cbn [uint_base]. change (Ascii.eqb "0" "0") with true. cbv iota.
    destruct s as [|d [|e s]]; try reflexivity.
    destruct (prefixb_none _ _ _ Hp eq_refl) as (H1 & H2 & H3).
    destruct (lower_bit_is d) as (L1 & L2 & L3). rewrite L1, L2, L3, H1, H2, H3. reflexivity.
  - intros Hw. unfold underscore_ok. change (Ascii.eqb "0" "-" || Ascii.eqb "0" "+") with false. cbv iota.
    assert (Hgo : underscore_loop false SawStart ("0"%char :: s) = sep_ok PrevDigit s).
    { change (underscore_loop false SawStart ("0"%char :: s)) with (underscore_loop false SawDigit s).
      apply underscore_run; [reflexivity|]. eapply wch_more; [|exact Hw]. lia. }
    destruct s as [|d s]; [exact Hgo|].
    destruct (prefixb_none _ _ _ Hp eq_refl) as (H1 & H2 & H3).
    destruct (lower_bit_is d) as (L1 & L2 & L3). cbv zeta. rewrite L1, L2, L3, H1, H2, H3. exact Hgo.
Qed.

Lemma uint_decimal c s n : Ascii.eqb c "0" = false -> (parse_uint64 (c :: s) = Some n <-> fits 10 PrevOther (c :: s) (Z.of_N n)).
Proof.
  intros Hc. apply uint_fits; [discriminate| |lia|discriminate|].
  - cbn [uint_base]. rewrite Hc. reflexivity.
  - intros Hw. assert (Hsign : Ascii.eqb c "-" || Ascii.eqb c "+" = false).
    { cbn [forallb] in Hw. apply andb_true_iff in Hw as [Hw _]. revert Hw. clear.
      destruct c as [[] [] [] [] [] [] [] []]; vm_compute; intros H; try discriminate H; reflexivity. }
    unfold underscore_ok. rewrite Hsign.
    assert (Hgo : underscore_loop false SawStart (c :: s) = sep_ok PrevOther (c :: s)).
    { apply underscore_run; [reflexivity|exact Hw]. }
    destruct s as [|d s]; [exact Hgo|]. rewrite Hc. exact Hgo.
Qed.

Lemma whole_uint s n : parse_uint64 s = Some n <-> whole_text s (Z.of_N n) /\ Z.of_N n < 2 ^ 64.
Proof.
  split.
  - intros H. destruct (prefixb s) eqn:Ep.
    + apply prefixb_inv in Ep as (b & p & t & Hp & ->). destruct t as [|c t].
      * rewrite app_nil_r in H. destruct Hp; discriminate H.
      * apply (proj1 (uint_prefixed b p (c :: t) n Hp ltac:(discriminate))) in H. destruct H as (Hw & Hok & Hv & Hr). split; [|exact Hr].
        assert (Hb : b <= 16) by (apply prefix_base in Hp; lia).
        apply digit_prefixed in Hok as [Hok|[E _]]; [|discriminate].
        apply (whole_prefixed b p _ _ _ Hp Hok). apply based_iff; [exact Hb|]. split; [apply wch_all; exact Hw|auto].
    + destruct s as [|c s]; [discriminate|]. destruct (Ascii.eqb c "0") eqn:Ec.
      * apply Ascii.eqb_eq in Ec. subst c. apply uint_octal in H as (Hw & Hok & Hv & Hr); [|exact Ep]. split; [|exact Hr].
        destruct s as [|d s]; [rewrite Hv; exact whole_zero|].
        apply digit_prefixed in Hok as [Hok|[E _]]; [|discriminate].
        apply (whole_octal _ _ _ Hok). apply based_iff; [lia|]. split; [apply wch_all; exact Hw|auto].
      * apply uint_decimal in H as (Hw & Hok & Hv & Hr); [|exact Ec]. split; [|exact Hr].
        apply other_grouped in Hok as [Hok|[E _]]; [|discriminate].
        apply (whole_decimal _ _ _ Hok).
        -- cbn [hd_error]. intros E. injection E as ->. discriminate.
        -- apply based_iff; [lia|]. split; [apply wch_all; exact Hw|auto].
  - intros [H Hr]. remember (Z.of_N n) as v eqn:Ev. destruct H as [|s ds v Hg H0 Hv|s ds v Hg Hv|b p s ds v Hp Hg Hv].
    + assert (n = 0%N) by lia. subst n. reflexivity.
    + destruct (grouped_ne _ _ Hg) as [Hne Hdne]. pose proof (grouped_ok PrevOther _ _ Hg) as Hok.
      pose proof (grouped_sepless _ _ Hg) as ->. destruct s as [|c s]; [congruence|].
      apply based_iff in Hv as [Hall Hv]; [|lia]. apply all_wch in Hall.
      apply uint_decimal; [destruct (Ascii.eqb_spec c "0") as [->|]; [elim H0; reflexivity|reflexivity]|].
      unfold fits. repeat split; try assumption; lia.
    + destruct (prefixed_ok _ _ Hg) as (Hok & -> & Hne).
      apply based_iff in Hv as [Hall Hv]; [|lia]. apply all_wch in Hall.
      apply uint_octal; [|unfold fits; repeat split; try assumption; lia].
      destruct s as [|d s]; [reflexivity|]. cbn [forallb] in Hall. apply andb_true_iff in Hall as [Hd _].
      cbn [prefixb]. change (Ascii.eqb "0" "0") with true. cbn [andb].
      destruct (existsb (Ascii.eqb d) (bs "bBoOxX")) eqn:E; [|reflexivity]. exfalso.
      apply existsb_exists in E as (x & Hin & Ex). apply Ascii.eqb_eq in Ex. subst x.
      pose proof (wch_prefix_letter 8 d d ltac:(lia) Hd Hin) as E. rewrite Ascii.eqb_refl in E. discriminate.
    + assert (Hb : b <= 16) by (apply prefix_base in Hp; lia).
      destruct (prefixed_ok _ _ Hg) as (Hok & -> & Hne).
      apply based_iff in Hv as [Hall Hv]; [|exact Hb]. apply all_wch in Hall.
      apply (proj2 (uint_prefixed b p s n Hp ltac:(intros ->; apply Hne; reflexivity))). unfold fits. repeat split; try assumption; lia.
Qed.
