(** How large the number can be that an amount is read as. *)
From Coq Require Import QArith Qpower Lia.
From Verif Require Import GoStr SpecStr SpecNum GoStrFacts GoNumFacts GoRat Types SpecAmountText AmountTextFacts.
Local Open Scope Z_scope.

Lemma red_small p q : Z.abs (Qnum (Qred (p # q))) <= Z.abs p /\ Zpos (Qden (Qred (p # q))) <= Zpos q.
Proof.
  unfold Qred. pose proof (Z.ggcd_correct_divisors p (Zpos q)) as H. pose proof (Z.ggcd_gcd p (Zpos q)) as Hg.
  destruct (Z.ggcd p (Zpos q)) as [g [r1 r2]]. cbn [fst snd] in *. destruct H as [H1 H2].
  assert (0 < g). { assert (0 <= g) by (subst g; apply Z.gcd_nonneg). destruct (Z.eq_dec g 0) as [E|]; [|lia]. rewrite E in H2. lia. }
  assert (0 < r2) by nia.
  cbn [Qnum Qden]. rewrite Z2Pos.id by lia. split; [|nia]. rewrite H1, Z.abs_mul. nia.
Qed.

Lemma digit_bound b c d : digit_in b c d -> 0 <= d < b.
Proof. intros [H _]. exact H. Qed.

Lemma based_bound b ds v : 2 <= b <= 16 -> based b ds v -> 0 <= v < 16 ^ Z.of_nat (length ds).
Proof.
  intros Hb. induction 1 as [|s v c d _ IH Hd]; [cbn; lia|].
  apply digit_bound in Hd. rewrite app_length. cbn [length]. rewrite Nat2Z.inj_add, Z.pow_add_r by lia.
  change (16 ^ Z.of_nat 1) with 16. nia.
Qed.

Lemma grouped_short s ds : grouped s ds -> (length ds <= length s)%nat.
Proof. induction 1; rewrite ?app_length in *; cbn [length] in *; lia. Qed.

Lemma maybe_short s ds : maybe_grouped s ds -> (length ds <= length s)%nat.
Proof. intros [H|[-> ->]]; [apply grouped_short, H|cbn; lia]. Qed.

Lemma after_short s ds : after_prefix s ds -> (length ds <= length s)%nat.
Proof. intros [H|(t & -> & H)]; apply grouped_short in H; cbn [length]; lia. Qed.

Lemma prefix_range b p : base_prefix b p -> 2 <= b <= 16.
Proof. destruct 1; lia. Qed.

Lemma power_more v k L : 0 <= v < 16 ^ Z.of_nat k -> (k <= L)%nat -> 0 <= v < 16 ^ Z.of_nat L.
Proof.
  intros H HL. assert (16 ^ Z.of_nat k <= 16 ^ Z.of_nat L) by (apply Z.pow_le_mono_r; lia). lia.
Qed.

Lemma whole_bound s v : whole_text s v -> 0 <= v < 16 ^ Z.of_nat (length s).
Proof.
  destruct 1 as [|s ds v Hg _ Hv|s ds v Hg Hv|b p s ds v Hp Hg Hv].
  - cbn; lia.
  - apply grouped_short in Hg. apply (power_more v (length ds)); [apply (based_bound 10); [lia|exact Hv]|lia].
  - apply after_short in Hg. apply (power_more v (length ds)); [apply (based_bound 8); [lia|exact Hv]|cbn [length]; lia].
  - apply after_short in Hg. apply (power_more v (length ds)); [apply (based_bound b); [exact (prefix_range _ _ Hp)|exact Hv]|].
    rewrite app_length. lia.
Qed.

Lemma mantissa_bound s b n k : mantissa_text s b n k -> 0 <= n < 16 ^ Z.of_nat (length s).
Proof.
  destruct 1 as [i ip n Hg Hv|i f ip fp n Hi Hf _ Hv|b p i ip n Hp Hg Hv|b p i f ip fp n Hp Hi Hf _ Hv].
  - apply grouped_short in Hg. apply (power_more n (length ip)); [apply (based_bound 10); [lia|exact Hv]|lia].
  - apply maybe_short in Hi. apply maybe_short in Hf.
    apply (power_more n (length (ip ++ fp))); [apply (based_bound 10); [lia|exact Hv]|]. rewrite !app_length. cbn [length]. lia.
  - apply after_short in Hg. apply (power_more n (length ip)); [apply (based_bound b); [exact (prefix_range _ _ Hp)|exact Hv]|].
    rewrite app_length. lia.
  - apply maybe_short in Hf.
    assert (length ip <= length i)%nat by (destruct Hi as [Hi|[-> ->]]; [apply after_short, Hi|cbn; lia]).
    apply (power_more n (length (ip ++ fp))); [apply (based_bound b); [exact (prefix_range _ _ Hp)|exact Hv]|].
    rewrite !app_length. cbn [length]. lia.
Qed.

Lemma fives_bound f F : 0 <= F -> f <= F -> 0 < 5 ^ Z.max 0 f <= 2 ^ (3 * F).
Proof.
  intros HF Hf. split; [apply Z.pow_pos_nonneg; lia|].
  rewrite Z.pow_mul_r by lia. change (2 ^ 3) with 8.
  apply (Z.le_trans _ (8 ^ Z.max 0 f)); [apply Z.pow_le_mono_l; lia|apply Z.pow_le_mono_r; lia].
Qed.

Lemma twos_bound g G : 0 <= G -> g <= G -> 0 < 2 ^ Z.max 0 g <= 2 ^ G.
Proof. intros HG Hg. split; [apply Z.pow_pos_nonneg; lia|apply Z.pow_le_mono_r; lia]. Qed.

Lemma scale_bound m f g F G B : 0 <= F -> 0 <= G -> Z.abs f <= F -> Z.abs g <= G -> Z.abs m < B ->
  Z.abs (Qnum (scale_rat m f g)) < B * 2 ^ (3 * F + G) /\ Zpos (Qden (scale_rat m f g)) <= 2 ^ (3 * F + G).
Proof.
  intros HF HG Hf Hg Hm. unfold scale_rat.
  pose proof (fives_bound f F HF ltac:(lia)) as H5. pose proof (twos_bound g G HG ltac:(lia)) as H2.
  pose proof (fives_bound (- f) F HF ltac:(lia)) as H5'. pose proof (twos_bound (- g) G HG ltac:(lia)) as H2'.
  rewrite Z.pow_add_r by lia.
  set (a := 5 ^ Z.max 0 f) in *. set (b := 2 ^ Z.max 0 g) in *. set (c := 5 ^ Z.max 0 (- f)) in *. set (d := 2 ^ Z.max 0 (- g)) in *.
  set (X := 2 ^ (3 * F)) in *. set (Y := 2 ^ G) in *. clearbody a b c d X Y.
  destruct (red_small (m * a * b) (Z.to_pos (c * d))) as [H1 H3]. rewrite Z2Pos.id in H3 by nia. split.
  - rewrite !Z.abs_mul, (Z.abs_eq a), (Z.abs_eq b) in H1 by lia.
    assert (a * b <= X * Y) by (apply Z.mul_le_mono_nonneg; lia).
    assert (Z.abs m * (a * b) <= Z.abs m * (X * Y)) by (apply Z.mul_le_mono_nonneg_l; lia).
    assert (Z.abs m * (X * Y) < B * (X * Y)) by (apply Z.mul_lt_mono_pos_r; [apply Z.mul_pos_pos; lia|lia]). lia.
  - apply (Z.le_trans _ (c * d)); [exact H3|]. apply Z.mul_le_mono_nonneg; lia.
Qed.

Lemma signed_red sign q x : signed sign q x -> exists s, (s = 1 \/ s = -1) /\ (x == inject_Z s * q)%Q.
Proof.
  intros [[_ H]|[_ H]]; [exists 1|exists (-1)]; (split; [tauto|]); rewrite H.
  - change (inject_Z 1) with 1%Q. ring.
  - change (inject_Z (-1)) with (-(1))%Q. ring.
Qed.

Lemma sixteen L : 16 ^ L = 2 ^ (4 * L).
Proof.
  destruct (Z.le_gt_cases 0 L) as [H|H]; [rewrite Z.pow_mul_r by lia; reflexivity|].
  rewrite !Z.pow_neg_r by lia. reflexivity.
Qed.

Lemma mantissa_nonempty sign sm se b n k : mantissa_text sm b n k -> 16 <= 16 ^ Z.of_nat (length (sign ++ sm ++ se)).
Proof.
  intros Hm. assert (1 <= length sm)%nat.
  { destruct Hm as [i ip n Hg _|i f ip fp n _ _ _ _|b p i ip n Hp _ _|b p i f ip fp n Hp _ _ _ _].
    - destruct Hg as [ds Hd _|ds s es Hd _ _]; [destruct ds; [contradiction|cbn; lia]|]. rewrite app_length. cbn; lia.
    - rewrite app_length. cbn; lia.
    - rewrite app_length. destruct Hp; cbn; lia.
    - rewrite app_length. destruct Hp; cbn; lia. }
  change 16 with (16 ^ 1) at 1. apply Z.pow_le_mono_r; [lia|]. rewrite !app_length. lia.
Qed.

Lemma number_size F G s x : F = 1000000 -> G = 10000000 -> number_text s x ->
  Z.abs (Qnum (Qred x)) < 2 ^ (4 * Z.of_nat (length s) + (3 * F + G)) /\
  Zpos (Qden (Qred x)) < 2 ^ (4 * Z.of_nat (length s) + (3 * F + G)).
Proof.
  intros EF EG H. assert (HF : 0 <= F) by lia. assert (HG : 0 <= G) by lia.
  rewrite Z.pow_add_r, <- sixteen by lia.
  assert (HP : 1 <= 2 ^ (3 * F + G)). { pose proof (Z.pow_pos_nonneg 2 (3 * F + G)). lia. }
  destruct H as [sign sa sb a b x Ha Hb Hne Hx|sign sm se b k eb e x Hm He Hx|sign sm se b n k eb e x Hm He Hr Hx].
  - apply whole_bound in Ha. apply whole_bound in Hb. apply signed_red in Hx as (sg & Hs & Hx).
    assert (E : Qred x = Qred (sg * a # Z.to_pos b)).
    { apply Qred_complete. rewrite Hx. unfold Qdiv, inject_Z, Qinv, Qmult, Qeq. cbn [Qnum Qden]. destruct b; try lia.
      cbn [Qnum Qden Z.to_pos]. lia. }
    rewrite E. destruct (red_small (sg * a) (Z.to_pos b)) as [H1 H2]. rewrite Z2Pos.id in H2 by lia.
    apply (power_more a _ (length (sign ++ sa ++ "/"%char :: sb))) in Ha; [|rewrite !app_length; cbn [length]; lia].
    apply (power_more b _ (length (sign ++ sa ++ "/"%char :: sb))) in Hb; [|rewrite !app_length; cbn [length]; lia].
    set (P := 2 ^ (3 * F + G)) in *. set (Q := 16 ^ Z.of_nat _) in *. clearbody P Q.
    rewrite Z.abs_mul, (Z.abs_eq a) in H1 by lia. replace (Z.abs sg) with 1 in H1 by lia. nia.
  - assert (E : Qred x = (0 # 1)%Q).
    { change (0 # 1)%Q with (Qred 0). apply Qred_complete. destruct Hx as [[_ ->]|[_ ->]]; reflexivity. }
    rewrite E. cbn [Qnum Qden].
    pose proof (mantissa_nonempty sign sm se _ _ _ Hm) as HL.
    set (P := 2 ^ (3 * F + G)) in *. set (Q := 16 ^ Z.of_nat _) in *. clearbody P Q. cbn [Z.abs]. nia.
  - apply signed_red in Hx as (sg & Hs & Hx). destruct Hr as [R5 R2]. rewrite <- EF in R5. rewrite <- EG in R2.
    set (f := fives_in eb * e - fives_in b * Z.of_nat k) in *. set (g := e - twos_in b * Z.of_nat k) in *.
    assert (E : Qred x = scale_rat (sg * n) f g).
    { rewrite scale_rat_value. apply Qred_complete. rewrite Hx, (scaled_value n b eb k e (mantissa_base _ _ _ _ Hm) (exponent_base _ _ _ _ He)).
      fold f g. rewrite inject_Z_mult. ring. }
    rewrite E. pose proof (mantissa_nonempty sign sm se _ _ _ Hm) as HL. apply mantissa_bound in Hm.
    apply (power_more n _ (length (sign ++ sm ++ se))) in Hm; [|rewrite !app_length; lia].
    destruct (scale_bound (sg * n) f g F G (16 ^ Z.of_nat (length (sign ++ sm ++ se))) HF HG R5 R2) as [H1 H2].
    { rewrite Z.abs_mul, (Z.abs_eq n) by lia. replace (Z.abs sg) with 1 by lia. lia. }
    split; [exact H1|].
    set (P := 2 ^ (3 * F + G)) in *. set (Q := 16 ^ Z.of_nat _) in *. clearbody P Q. nia.
Qed.

Lemma comma_length s t : comma_as_point s t -> length t = length s.
Proof. intros [[_ ->]|(a & r & _ & -> & ->)]; [reflexivity|]. rewrite !app_length. reflexivity. Qed.

Lemma trims_length s t : trims_to s t -> (length t <= length s)%nat.
Proof. intros (l & r & _ & _ & -> & _). rewrite !app_length. lia. Qed.

Lemma power_mono x a b : 0 <= a <= b -> x < 2 ^ a -> x < 2 ^ b.
Proof. intros H Hx. apply (Z.lt_le_trans _ (2 ^ a)); [exact Hx|apply Z.pow_le_mono_r; lia]. Qed.

Theorem amount_size s y : amount_unmarshal s = Some y ->
  Z.abs (Qnum y) < 2 ^ (4 * Z.of_nat (length s) + 13000000) /\ Zpos (Qden y) < 2 ^ (4 * Z.of_nat (length s) + 13000000).
Proof.
  intros H. apply amount_exact in H as (x & (t & u & Ht & Hu & Hx) & ->).
  assert (HL : (length u <= length s)%nat) by (rewrite (comma_length _ _ Hu); exact (trims_length _ _ Ht)).
  destruct (number_size _ _ u x eq_refl eq_refl Hx) as [H1 H2].
  assert (G : 0 <= 4 * Z.of_nat (length u) + (3 * 1000000 + 10000000) <= 4 * Z.of_nat (length s) + 13000000) by (clear H1 H2; lia).
  split; [exact (power_mono _ _ _ G H1)|exact (power_mono _ _ _ G H2)].
Qed.

(** A power of ten. *)
Lemma power_text s ds E : s = bs "1e" ++ ds -> trims_to s s -> ~ In ","%char s -> grouped ds ds -> digits ds E -> 0 <= E <= 1000000 ->
  amount_text s (inject_Z 10 ^ E).
Proof.
  intros -> Hs Hc Hg Hd HE. exists (bs "1e" ++ ds), (bs "1e" ++ ds). split; [exact Hs|]. split; [left; split; [exact Hc|reflexivity]|].
  apply (number_scaled [] (bs "1") ("e"%char :: ds) 10 1 0 10 E).
  - apply (mantissa_decimal (bs "1") (bs "1")); [constructor; [discriminate|cbn; intuition discriminate]|].
    apply based_iff; [lia|split; vm_compute; reflexivity].
  - apply (exponent_ten 10 "e" [] ds ds E); [left; reflexivity|discriminate|exact Hg|exact Hd|left; split; [left|]; reflexivity|].
    unfold int64_range. lia.
  - unfold in_reach, fives_in, twos_in. cbn [Z.eqb Pos.eqb Z.of_nat]. lia.
  - left. split; [left; reflexivity|]. change (inject_Z 10 ^ (- Z.of_nat 0))%Q with 1%Q. change (inject_Z 1) with 1%Q. ring.
Qed.

Lemma power_num E : 0 <= E -> 2 ^ (3 * E) <= Qnum (Qred (inject_Z 10 ^ E)).
Proof.
  intros HE. assert (H : (Qred (inject_Z 10 ^ E) == inject_Z (10 ^ E))%Q).
  { rewrite (Zpower_Qpower 10 E HE). apply Qred_correct. }
  revert H. generalize (Qred (inject_Z 10 ^ E)). intros y H. unfold Qeq, inject_Z in H. cbn [Qnum Qden] in H. rewrite Z.mul_1_r in H.
  assert (H3 : 2 ^ (3 * E) <= 10 ^ E). { rewrite Z.pow_mul_r by lia. apply Z.pow_le_mono_l. lia. }
  assert (0 < 10 ^ E) by (apply Z.pow_pos_nonneg; lia). nia.
Qed.

Theorem amount_large : exists s y, amount_unmarshal s = Some y /\ 2 ^ (300000 * Z.of_nat (length s)) <= Qnum y.
Proof.
  exists (bs "1e1000000"), (Qred (inject_Z 10 ^ 1000000)). split.
  - apply amount_exact. eexists. split; [|reflexivity].
    apply (power_text (bs "1e1000000") (bs "1000000") 1000000); [reflexivity| | | | |split; discriminate].
    + apply trim_space_iff. vm_compute. reflexivity.
    + cbn. intuition discriminate.
    + constructor; [discriminate|cbn; intuition discriminate].
    + apply digits_iff. split; reflexivity.
  - apply (Z.le_trans _ (2 ^ (3 * 1000000))); [|exact (power_num 1000000 ltac:(discriminate))].
    apply Z.pow_le_mono_r; [reflexivity|]. vm_compute. discriminate.
Qed.
