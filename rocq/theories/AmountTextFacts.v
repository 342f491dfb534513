(** Proofs for C82: exactly which texts Amount.UnmarshalXML accepts. *)
From Coq Require Import QArith Qpower Qround Qabs Lia ZifyBool ZifyNat ZifyN Lqa.
From Verif Require Import GoStr SpecStr SpecNum GoStrFacts GoNum GoNumFacts GoRat GoTime Types RatFacts
  DateTextFacts SpecAmountText.
Local Open Scope Z_scope.

(** ** Runs of digits and underscores *)

Definition wch (b : Z) (c : ascii) : bool := Ascii.eqb c "_" || (alnum_val c <? b).
Definition sepless (w : str) : str := filter (fun c => negb (Ascii.eqb c "_")) w.
Definition bval (b acc : Z) (ds : str) : Z := fold_left (fun a c => a * b + alnum_val c) ds acc.
Definition lastk (p : prev_kind) (w : str) : prev_kind :=
  fold_left (fun _ c => if Ascii.eqb c "_" then PrevSep else PrevDigit) w p.
Fixpoint badk (p : prev_kind) (w : str) : bool :=
  match w with
  | [] => false
  | c :: w' => if Ascii.eqb c "_" then negb (is_prev_digit p) || badk PrevSep w' else badk PrevDigit w'
  end.
Definition sep_ok (p : prev_kind) (w : str) : bool := negb (badk p w || is_prev_sep (lastk p w)).
Definition slen (w : str) : Z := Z.of_nat (length (sepless w)).
Definition stops (b : Z) (r : str) : Prop := match r with [] => True | c :: _ => wch b c = false end.

Lemma span_wch b s : exists w r, s = w ++ r /\ forallb (wch b) w = true /\ stops b r.
Proof.
  induction s as [|c s (w & r & -> & Hw & Hr)].
  - exists [], []. repeat split.
  - destruct (wch b c) eqn:Ec.
    + exists (c :: w), r. split; [reflexivity|]. split; [cbn [forallb]; rewrite Ec; exact Hw|exact Hr].
    + exists [], (c :: w ++ r). split; [reflexivity|]. split; [reflexivity|exact Ec].
Qed.

Lemma slen_cons c w : slen (c :: w) = (if Ascii.eqb c "_" then 0 else 1) + slen w.
Proof. unfold slen, sepless. cbn [filter]. destruct (Ascii.eqb c "_"); cbn [negb length]; lia. Qed.

Lemma alnum_nonneg c : 0 <= alnum_val c.
Proof.
  destruct c as [[] [] [] [] [] [] [] []]; vm_compute; discriminate.
Qed.

Lemma scan_run b fok w : forall acc cnt dp p inv r, b <= 16 -> forallb (wch b) w = true ->
  scan_loop b fok (mkScan acc cnt dp p inv []) (w ++ r) =
  scan_loop b fok (mkScan (bval b acc (sepless w)) (cnt + slen w) dp (lastk p w) (inv || badk p w) []) r.
Proof.
  induction w as [|c w IH]; intros acc cnt dp p inv r Hb Hw.
  - cbn [app]. unfold slen, bval, sepless, lastk. cbn [filter length fold_left badk].
    rewrite orb_false_r. replace (cnt + Z.of_nat 0) with cnt by lia. reflexivity.
  - cbn [forallb] in Hw. apply andb_true_iff in Hw as [Hc Hw].
    cbn [app scan_loop]. rewrite slen_cons.
    assert (Hdot : Ascii.eqb c "." = false).
    { destruct (Ascii.eqb_spec c ".") as [->|]; [|reflexivity]. unfold wch in Hc.
      change (Ascii.eqb "." "_") with false in Hc. change (alnum_val ".") with 255 in Hc. cbn [orb] in Hc. lia. }
    rewrite Hdot. cbn [andb sc_acc sc_count sc_dp sc_prev sc_inval].
    unfold wch in Hc. unfold sepless at 1. cbn [filter]. unfold lastk. cbn [fold_left badk].
    destruct (Ascii.eqb c "_") eqn:Eu; cbn [negb].
    + rewrite IH by assumption. unfold bval, sepless, lastk. f_equal. f_equal; [].
      rewrite orb_assoc. reflexivity.
    + cbn [orb] in Hc. replace (b <=? alnum_val c) with false by lia.
      rewrite IH by assumption. unfold bval, sepless, lastk. cbn [fold_left]. f_equal. f_equal. lia.
Qed.

(** ** Grouped digits *)

Lemma sepless_id ds : ~ In "_"%char ds -> sepless ds = ds.
Proof.
  induction ds as [|c ds IH]; intros H; [reflexivity|]. unfold sepless in *. cbn [filter].
  destruct (Ascii.eqb_spec c "_") as [->|Hc]; [elim H; left; reflexivity|].
  cbn [negb]. rewrite IH; [reflexivity|]. intros Hin. apply H. right. exact Hin.
Qed.

Lemma sepless_app a r : sepless (a ++ r) = sepless a ++ sepless r.
Proof. unfold sepless. apply filter_app. Qed.

Lemma grouped_sepless s ds : grouped s ds -> ds = sepless s.
Proof.
  induction 1 as [ds Hne Hno|ds s es Hne Hno H IH].
  - symmetry. apply sepless_id, Hno.
  - rewrite sepless_app, (sepless_id ds Hno). f_equal. exact IH.
Qed.

Lemma grouped_ne s ds : grouped s ds -> s <> [] /\ ds <> [].
Proof.
  induction 1 as [ds Hne Hno|ds s es Hne Hno H IH]; [split; exact Hne|].
  destruct ds; [congruence|]. split; discriminate.
Qed.

Lemma sep_ok_digits ds : forall p r, ds <> [] -> ~ In "_"%char ds -> sep_ok p (ds ++ r) = sep_ok PrevDigit r.
Proof.
  induction ds as [|c ds IH]; intros p r Hne Hno; [congruence|].
  assert (Hc : Ascii.eqb c "_" = false).
  { destruct (Ascii.eqb_spec c "_") as [->|]; [elim Hno; left; reflexivity|reflexivity]. }
  unfold sep_ok, lastk. cbn [app badk fold_left]. rewrite Hc.
  destruct ds as [|c' ds]; [reflexivity|].
  apply (IH PrevDigit r); [discriminate|]. intros Hin. apply Hno. right. exact Hin.
Qed.

Lemma sep_ok_sep r : sep_ok PrevDigit ("_"%char :: r) = sep_ok PrevSep r.
Proof. reflexivity. Qed.

Lemma sep_ok_sep_other r : sep_ok PrevSep r = true -> sep_ok PrevOther r = true /\ r <> [].
Proof.
  destruct r as [|c r]; [discriminate|]. unfold sep_ok, lastk. cbn [badk fold_left].
  destruct (Ascii.eqb c "_"); cbn [negb is_prev_digit orb]; [discriminate|]. intros H. split; [exact H|discriminate].
Qed.

Lemma sep_ok_other_sep r : r <> [] -> sep_ok PrevSep r = sep_ok PrevOther r.
Proof. destruct r as [|c r]; [congruence|]. intros _. reflexivity. Qed.

Lemma grouped_ok p s ds : grouped s ds -> sep_ok p s = true.
Proof.
  intros H. revert p. induction H as [ds Hne Hno|ds s es Hne Hno H IH]; intros p.
  - rewrite <- (app_nil_r ds), sep_ok_digits by assumption. reflexivity.
  - rewrite sep_ok_digits by assumption. rewrite sep_ok_sep. apply IH.
Qed.

Lemma run_split s : exists ds r, s = ds ++ r /\ ~ In "_"%char ds /\ (r = [] \/ exists t, r = "_"%char :: t).
Proof.
  induction s as [|c s (ds & r & -> & Hno & Hr)].
  - exists [], []. split; [reflexivity|]. split; [intros []|left; reflexivity].
  - destruct (Ascii.eqb_spec c "_") as [->|Hc].
    + exists [], ("_"%char :: ds ++ r). split; [reflexivity|]. split; [intros []|right; eexists; reflexivity].
    + exists (c :: ds), r. split; [reflexivity|]. split; [|exact Hr].
      intros [E|Hin]; [congruence|exact (Hno Hin)].
Qed.

Lemma ok_grouped n : forall s, (length s <= n)%nat -> s <> [] -> sep_ok PrevOther s = true -> grouped s (sepless s).
Proof.
  induction n as [|n IH]; intros s Hn Hne Hok; [destruct s; [congruence|cbn in Hn; lia]|].
  destruct (run_split s) as (ds & r & -> & Hno & Hr).
  destruct ds as [|c ds].
  - cbn [app] in *. destruct Hr as [-> | [t ->]]; [congruence|]. discriminate.
  - rewrite sep_ok_digits in Hok by (try discriminate; exact Hno).
    destruct Hr as [-> | [t ->]].
    + rewrite app_nil_r, sepless_id by exact Hno. constructor; [discriminate|exact Hno].
    + rewrite sep_ok_sep in Hok. apply sep_ok_sep_other in Hok as [Hok Ht].
      rewrite sepless_app, (sepless_id (c :: ds) Hno).
      apply (grouped_more (c :: ds) t (sepless t)); [discriminate|exact Hno|].
      apply IH; [|exact Ht|exact Hok]. rewrite app_length in Hn. cbn [length] in Hn. lia.
Qed.

Lemma other_grouped s : sep_ok PrevOther s = true -> maybe_grouped s (sepless s).
Proof.
  intros H. destruct s as [|c s]; [right; split; reflexivity|].
  left. apply (ok_grouped (length (c :: s))); [lia|discriminate|exact H].
Qed.

Lemma maybe_ok p s ds : p <> PrevSep -> maybe_grouped s ds -> sep_ok p s = true /\ ds = sepless s.
Proof.
  intros Hp [H|[-> ->]]; [split; [exact (grouped_ok p s ds H)|exact (grouped_sepless s ds H)]|].
  split; [|reflexivity]. destruct p; [reflexivity|reflexivity|congruence].
Qed.

Lemma digit_prefixed s : sep_ok PrevDigit s = true -> after_prefix s (sepless s) \/ (s = [] /\ sepless s = []).
Proof.
  intros H. destruct s as [|c s]; [right; split; reflexivity|]. left.
  destruct (Ascii.eqb_spec c "_") as [->|Hc].
  - right. exists s. split; [reflexivity|]. rewrite sep_ok_sep in H.
    apply sep_ok_sep_other in H as [H Hs]. change (sepless ("_"%char :: s)) with (sepless s).
    apply (ok_grouped (length s)); [lia|exact Hs|exact H].
  - left. apply (ok_grouped (length (c :: s))); [lia|discriminate|].
    unfold sep_ok, lastk in *. cbn [badk fold_left] in *.
    destruct (Ascii.eqb_spec c "_") as [E|_]; [congruence|]. exact H.
Qed.

Lemma prefixed_ok s ds : after_prefix s ds -> sep_ok PrevDigit s = true /\ ds = sepless s /\ ds <> [].
Proof.
  intros [H|(t & -> & H)].
  - split; [exact (grouped_ok _ s ds H)|]. split; [exact (grouped_sepless s ds H)|exact (proj2 (grouped_ne s ds H))].
  - rewrite sep_ok_sep. split; [exact (grouped_ok _ t ds H)|].
    split; [exact (grouped_sepless t ds H)|exact (proj2 (grouped_ne t ds H))].
Qed.

(** ** Positional value *)

Lemma digit_in_iff b c d : b <= 16 -> (digit_in b c d <-> alnum_val c = d /\ d < b).
Proof.
  intros Hb. split.
  - intros [[Hd0 Hd] [k [Hk Hn]]]. subst d. split; [|exact Hd].
    assert (Hk16 : (k < 16)%nat) by lia.
    do 16 (destruct k as [|k]; [destruct Hn as [Hn|Hn]; cbn in Hn; injection Hn as <-; reflexivity|]). lia.
  - intros [Hc Hd]. subst d. pose proof (alnum_nonneg c) as H0. split; [lia|].
    exists (Z.to_nat (alnum_val c)). split; [lia|].
    assert (H16 : (alnum_val c <? 16) = true) by lia.
    clear - H16. revert H16. destruct c as [[] [] [] [] [] [] [] []]; vm_compute; intros H; try discriminate H; auto.
Qed.

Definition all_in (b : Z) (ds : str) : bool := forallb (fun c => alnum_val c <? b) ds.

Lemma based_iff b ds v : b <= 16 -> (based b ds v <-> all_in b ds = true /\ bval b 0 ds = v).
Proof.
  intros Hb. split.
  - induction 1 as [|s v c d Hs [Hall Hv] Hd]; [split; reflexivity|].
    apply digit_in_iff in Hd as [Hc Hd]; [|exact Hb]. unfold all_in, bval in *.
    rewrite forallb_app, Hall, fold_left_app, Hv. cbn [forallb fold_left]. split; [lia|lia].
  - intros [Hall Hv]. revert v Hall Hv. induction ds as [|c s IH] using rev_ind; intros v Hall Hv.
    + subst v. constructor.
    + unfold all_in, bval in *. rewrite forallb_app in Hall. apply andb_true_iff in Hall as [Hs Hc].
      cbn [forallb] in Hc. rewrite andb_true_r in Hc. rewrite fold_left_app in Hv. cbn [fold_left] in Hv.
      subst v. rewrite (Z.mul_comm _ b). constructor; [apply IH; [exact Hs|reflexivity]|].
      apply digit_in_iff; [exact Hb|]. split; [reflexivity|lia].
Qed.

Lemma wch_all b w : forallb (wch b) w = true -> all_in b (sepless w) = true.
Proof.
  unfold all_in, sepless. induction w as [|c w IH]; intros H; [reflexivity|]. cbn [forallb filter] in *.
  apply andb_true_iff in H as [Hc Hw]. unfold wch in Hc.
  destruct (Ascii.eqb c "_"); cbn [negb forallb orb] in *; [exact (IH Hw)|]. rewrite Hc. exact (IH Hw).
Qed.

Lemma all_wch b w : all_in b (sepless w) = true -> forallb (wch b) w = true.
Proof.
  unfold all_in, sepless. induction w as [|c w IH]; intros H; [reflexivity|]. cbn [forallb filter] in *.
  unfold wch at 1. destruct (Ascii.eqb c "_"); cbn [negb forallb orb andb] in *; [exact (IH H)|].
  apply andb_true_iff in H as [-> H]. exact (IH H).
Qed.

(** ** nat.scan *)

Definition nstart (fracOk : bool) (b : Z) (prefix : bool) (count : Z) (prev : prev_kind) (s0 : str)
  : option (Z * Z * Z * str) :=
  let st := scan_loop b fracOk (mkScan 0 count None prev false []) s0 in
  let inval := sc_inval st || is_prev_sep (sc_prev st) in
  if sc_count st =? 0 then
    if prefix : bool then (if inval then None else Some (0, 10, 1, sc_rest st)) else None
  else if inval then None
  else Some (sc_acc st, b, match sc_dp st with Some dp => dp - sc_count st | None => sc_count st end, sc_rest st).

Lemma scan_stop b fok st r : stops b r -> (fok = true -> hd_error r <> Some "."%char) ->
  scan_loop b fok st r = mkScan (sc_acc st) (sc_count st) (sc_dp st) (sc_prev st) (sc_inval st) r.
Proof.
  intros Hr Hdot. destruct r as [|c r]; [reflexivity|]. cbn [stops] in Hr. unfold wch in Hr.
  apply orb_false_iff in Hr as [Hu Hd]. cbn [scan_loop].
  replace (Ascii.eqb c "." && fok) with false.
  - rewrite Hu. replace (b <=? alnum_val c) with true by lia. reflexivity.
  - symmetry. destruct fok; [|apply andb_false_r]. rewrite andb_true_r.
    destruct (Ascii.eqb_spec c ".") as [->|]; [|reflexivity]. elim (Hdot eq_refl). reflexivity.
Qed.

Lemma nstart_run fok b pf cnt p w r : b <= 16 -> forallb (wch b) w = true -> stops b r ->
  (fok = true -> hd_error r <> Some "."%char) ->
  nstart fok b pf cnt p (w ++ r) =
    if cnt + slen w =? 0 then if pf then (if sep_ok p w then Some (0, 10, 1, r) else None) else None
    else if sep_ok p w then Some (bval b 0 (sepless w), b, cnt + slen w, r) else None.
Proof.
  intros Hb Hw Hr Hdot. unfold nstart. rewrite scan_run, scan_stop by assumption.
  cbn [sc_acc sc_count sc_dp sc_prev sc_inval sc_rest orb]. unfold sep_ok.
  destruct (badk p w || is_prev_sep (lastk p w)); reflexivity.
Qed.

Lemma nstart_point b cnt p w1 w2 r : b <= 16 -> forallb (wch b) w1 = true -> forallb (wch b) w2 = true ->
  stops b r ->
  nstart true b false cnt p (w1 ++ "."%char :: w2 ++ r) =
    if cnt + slen w1 + slen w2 =? 0 then None
    else if sep_ok p w1 && sep_ok PrevOther w2
         then Some (bval b 0 (sepless w1 ++ sepless w2), b, - slen w2, r) else None.
Proof.
  intros Hb H1 H2 Hr. unfold nstart. rewrite scan_run by assumption. cbn [scan_loop].
  change (Ascii.eqb "." ".") with true. cbn [andb sc_acc sc_count sc_dp sc_prev sc_inval orb].
  rewrite scan_run, scan_stop by (try assumption; discriminate).
  cbn [sc_acc sc_count sc_dp sc_prev sc_inval sc_rest orb].
  destruct (cnt + slen w1 + slen w2 =? 0); [reflexivity|].
  unfold sep_ok. rewrite <- negb_orb, orb_assoc.
  destruct ((badk p w1 || is_prev_sep (lastk p w1)) || badk PrevOther w2 || is_prev_sep (lastk PrevOther w2));
    cbn [negb]; [reflexivity|].
  f_equal. f_equal. f_equal; [f_equal|]; [|lia]. unfold bval. rewrite fold_left_app. reflexivity.
Qed.

Lemma nat_scan_prefix fok b p s : base_prefix b p -> nat_scan fok (p ++ s) = nstart fok b false 0 PrevDigit s.
Proof. intros H. destruct H; reflexivity. Qed.

Definition prefixb (s : str) : bool :=
  match s with
  | c :: d :: _ => Ascii.eqb c "0" && existsb (Ascii.eqb d) (bs "bBoOxX")
  | _ => false
  end.

Lemma prefixb_inv s : prefixb s = true -> exists b p t, base_prefix b p /\ s = p ++ t.
Proof.
  destruct s as [|c [|d s]]; try discriminate. cbn [prefixb]. rewrite andb_true_iff.
  intros [Hc Hd]. apply Ascii.eqb_eq in Hc. subst c. apply existsb_exists in Hd as (e & Hin & He).
  apply Ascii.eqb_eq in He. subst e. cbn [bs list_ascii_of_string In] in Hin.
  destruct Hin as [<-|[<-|[<-|[<-|[<-|[<-|[]]]]]]].
  - exists 2, (bs "0b"), s. split; [constructor|reflexivity].
  - exists 2, (bs "0B"), s. split; [constructor|reflexivity].
  - exists 8, (bs "0o"), s. split; [constructor|reflexivity].
  - exists 8, (bs "0O"), s. split; [constructor|reflexivity].
  - exists 16, (bs "0x"), s. split; [constructor|reflexivity].
  - exists 16, (bs "0X"), s. split; [constructor|reflexivity].
Qed.

Lemma prefixb_none c d s : prefixb (c :: d :: s) = false -> Ascii.eqb c "0" = true ->
  Ascii.eqb d "b" || Ascii.eqb d "B" = false /\ Ascii.eqb d "o" || Ascii.eqb d "O" = false /\
  Ascii.eqb d "x" || Ascii.eqb d "X" = false.
Proof.
  cbn [prefixb]. intros H Hc. rewrite Hc in H. cbn [andb bs list_ascii_of_string existsb] in H.
  repeat (apply orb_false_iff in H as [? H]). repeat split; apply orb_false_iff; split; assumption.
Qed.

Lemma nstart_zero s : nstart true 10 false 0 PrevOther ("0"%char :: s) = nstart true 10 false 1 PrevDigit s.
Proof. reflexivity. Qed.

Lemma nat_scan_decimal_true s : s <> [] -> prefixb s = false -> nat_scan true s = nstart true 10 false 0 PrevOther s.
Proof.
  intros Hne Hp. destruct s as [|c s]; [congruence|].
  destruct (Ascii.eqb c "0") eqn:Ec.
  - assert (Hc : c = "0"%char) by (apply Ascii.eqb_eq; exact Ec). subst c. rewrite nstart_zero.
    destruct s as [|d s]; [reflexivity|].
    destruct (prefixb_none _ _ _ Hp Ec) as (H1 & H2 & H3).
    unfold nat_scan. change (Ascii.eqb "0" "0") with true. cbv iota. rewrite H1, H2, H3. reflexivity.
  - unfold nat_scan. rewrite Ec. reflexivity.
Qed.

Lemma nat_scan_octal s : s <> [] -> prefixb ("0"%char :: s) = false ->
  nat_scan false ("0"%char :: s) = nstart false 8 true 0 PrevDigit s.
Proof.
  intros Hne Hp. destruct s as [|d s]; [congruence|].
  destruct (prefixb_none _ _ _ Hp eq_refl) as (H1 & H2 & H3).
  unfold nat_scan. change (Ascii.eqb "0" "0") with true. cbv iota. rewrite H1, H2, H3. reflexivity.
Qed.

Lemma nat_scan_decimal_false c s : Ascii.eqb c "0" = false ->
  nat_scan false (c :: s) = nstart false 10 false 0 PrevOther (c :: s).
Proof. intros Hc. unfold nat_scan. rewrite Hc. reflexivity. Qed.

Lemma prefix_base b p : base_prefix b p -> b = 2 \/ b = 8 \/ b = 16.
Proof. intros H. destruct H; auto. Qed.

Lemma slen_ne w : sepless w <> [] -> slen w <> 0.
Proof. unfold slen. destruct (sepless w); [congruence|cbn; lia]. Qed.

Lemma slen_nonneg w : 0 <= slen w.
Proof. unfold slen. lia. Qed.

Lemma slen_zero w : slen w = 0 -> sepless w = [].
Proof. unfold slen. destruct (sepless w); [reflexivity|cbn; lia]. Qed.

Lemma nstart_inv b p s m b' fc r : b <= 16 -> nstart true b false 0 p s = Some (m, b', fc, r) ->
  b' = b /\ stops b r /\
  ((exists w, s = w ++ r /\ forallb (wch b) w = true /\ sep_ok p w = true /\ sepless w <> [] /\
      m = bval b 0 (sepless w) /\ 0 <= fc) \/
   (exists w1 w2, s = w1 ++ "."%char :: w2 ++ r /\ forallb (wch b) w1 = true /\ forallb (wch b) w2 = true /\
      sep_ok p w1 = true /\ sep_ok PrevOther w2 = true /\ sepless w1 ++ sepless w2 <> [] /\
      m = bval b 0 (sepless w1 ++ sepless w2) /\ fc = - slen w2)).
Proof.
  intros Hb H. destruct (span_wch b s) as (w & r0 & -> & Hw & Hr0).
  assert (Hd : hd_error r0 <> Some "."%char \/ exists r1, r0 = "."%char :: r1).
  { destruct r0 as [|c r1]; [left; discriminate|].
    destruct (Ascii.eqb_spec c ".") as [->|Hc]; [right; exists r1; reflexivity|].
    left. cbn. congruence. }
  destruct Hd as [Hd|[r1 ->]].
  - rewrite nstart_run in H by (try assumption; intros _; exact Hd).
    destruct (0 + slen w =? 0) eqn:E0; [discriminate|]. destruct (sep_ok p w) eqn:Ep; [|discriminate].
    injection H as <- <- <- <-. split; [reflexivity|]. split; [exact Hr0|]. left. exists w.
    split; [reflexivity|]. split; [exact Hw|]. split; [exact Ep|]. split.
    { intros E. unfold slen in E0. rewrite E in E0. cbn in E0. discriminate. }
    split; [reflexivity|]. pose proof (slen_nonneg w). lia.
  - destruct (span_wch b r1) as (w2 & r2 & -> & Hw2 & Hr2).
    rewrite nstart_point in H by assumption.
    destruct (0 + slen w + slen w2 =? 0) eqn:E0; [discriminate|].
    destruct (sep_ok p w && sep_ok PrevOther w2) eqn:Ep; [|discriminate].
    apply andb_true_iff in Ep as [Ep1 Ep2].
    injection H as <- <- <- <-. split; [reflexivity|]. split; [exact Hr2|]. right. exists w, w2.
    split; [reflexivity|]. do 4 (split; [assumption|]). split.
    { intros E. apply app_eq_nil in E as [E1 E2]. unfold slen in E0. rewrite E1, E2 in E0. cbn in E0. discriminate. }
    split; reflexivity.
Qed.

Lemma mantissa_forward s m b fc r : nat_scan true s = Some (m, b, fc, r) ->
  exists sm k, s = sm ++ r /\ mantissa_text sm b m k /\ stops b r /\ (if fc <? 0 then fc else 0) = - Z.of_nat k.
Proof.
  intros H. destruct (prefixb s) eqn:Ep.
  - apply prefixb_inv in Ep as (b0 & p & t & Hp & ->). rewrite (nat_scan_prefix _ b0) in H by exact Hp.
    assert (Hb : b0 <= 16) by (apply prefix_base in Hp; lia).
    apply nstart_inv in H as (-> & Hr & H); [|exact Hb].
    destruct H as [(w & -> & Hw & Hok & Hne & -> & Hfc)|(w1 & w2 & -> & Hw1 & Hw2 & Ho1 & Ho2 & Hne & -> & ->)].
    + exists (p ++ w), O. split; [apply app_assoc|]. split; [|split; [exact Hr|]].
      * apply digit_prefixed in Hok as [Hok|[_ E]]; [|congruence].
        apply (mantissa_prefixed b0 p w (sepless w)); [exact Hp|exact Hok|].
        apply based_iff; [exact Hb|]. split; [apply wch_all; exact Hw|reflexivity].
      * replace (fc <? 0) with false by lia. reflexivity.
    + exists (p ++ w1 ++ "."%char :: w2), (length (sepless w2)). split; [rewrite <- !app_assoc; reflexivity|].
      split; [|split; [exact Hr|]].
      * apply (mantissa_prefixed_point b0 p w1 w2 (sepless w1) (sepless w2)); [exact Hp| | |exact Hne|].
        -- apply digit_prefixed. exact Ho1.
        -- apply other_grouped. exact Ho2.
        -- apply based_iff; [exact Hb|]. split; [|reflexivity]. unfold all_in. rewrite forallb_app.
           apply andb_true_iff. split; [exact (wch_all _ _ Hw1)|exact (wch_all _ _ Hw2)].
      * unfold slen. destruct (Z.ltb_spec (- Z.of_nat (length (sepless w2))) 0); [reflexivity|lia].
  - assert (Hs : s <> []) by (intros ->; discriminate H).
    rewrite (nat_scan_decimal_true s Hs Ep) in H.
    apply nstart_inv in H as (-> & Hr & H); [|lia].
    destruct H as [(w & -> & Hw & Hok & Hne & -> & Hfc)|(w1 & w2 & -> & Hw1 & Hw2 & Ho1 & Ho2 & Hne & -> & ->)].
    + exists w, O. split; [reflexivity|]. split; [|split; [exact Hr|]].
      * apply other_grouped in Hok as [Hok|[_ E]]; [|congruence].
        apply (mantissa_decimal w (sepless w)); [exact Hok|].
        apply based_iff; [lia|]. split; [apply wch_all; exact Hw|reflexivity].
      * replace (fc <? 0) with false by lia. reflexivity.
    + exists (w1 ++ "."%char :: w2), (length (sepless w2)). split; [rewrite <- !app_assoc; reflexivity|].
      split; [|split; [exact Hr|]].
      * apply (mantissa_decimal_point w1 w2 (sepless w1) (sepless w2)); [| |exact Hne|].
        -- apply other_grouped. exact Ho1.
        -- apply other_grouped. exact Ho2.
        -- apply based_iff; [lia|]. split; [|reflexivity]. unfold all_in. rewrite forallb_app.
           apply andb_true_iff. split; [exact (wch_all _ _ Hw1)|exact (wch_all _ _ Hw2)].
      * unfold slen. destruct (Z.ltb_spec (- Z.of_nat (length (sepless w2))) 0); [reflexivity|lia].
Qed.

(** What may follow a mantissa. *)
Definition tail_ok (b : Z) (r : str) : Prop :=
  r = [] \/ exists c r', r = c :: r' /\ In c (bs "eEpP") /\ wch b c = false.

Lemma tail_stops b r : tail_ok b r -> stops b r /\ hd_error r <> Some "."%char.
Proof.
  intros [-> | (c & r' & -> & Hin & Hc)]; [split; [exact I|discriminate]|].
  split; [exact Hc|]. cbn [hd_error]. intros E. injection E as ->. cbn in Hin. intuition discriminate.
Qed.

Lemma wch_prefix_letter b c d : b <= 10 -> Ascii.eqb c "_" || (alnum_val c <? b) = true -> In d (bs "bBoOxX") ->
  Ascii.eqb d c = false.
Proof.
  intros Hb H Hin. destruct (Ascii.eqb_spec d c) as [->|]; [|reflexivity]. exfalso.
  cbn [bs list_ascii_of_string In] in Hin.
  destruct Hin as [<-|[<-|[<-|[<-|[<-|[<-|[]]]]]]]; cbn in H; lia.
Qed.

Lemma no_prefix w r : forallb (wch 10) w = true ->
  (r = [] \/ exists c r', r = c :: r' /\ In c (bs ".eEpP")) -> prefixb (w ++ r) = false.
Proof.
  intros Hw Hr. destruct (prefixb (w ++ r)) eqn:E; [|reflexivity]. exfalso.
  destruct (w ++ r) as [|c [|d t]] eqn:Es; try discriminate. cbn [prefixb] in E.
  apply andb_true_iff in E as [Ec Ed]. apply Ascii.eqb_eq in Ec. subst c.
  apply existsb_exists in Ed as (x & Hin & Ex). apply Ascii.eqb_eq in Ex. subst x.
  assert (Hd : wch 10 d = true \/ In d (bs ".eEpP")).
  { destruct w as [|c1 [|c2 w]].
    - cbn [app] in Es. destruct Hr as [-> | (c & r' & -> & Hc)]; [discriminate|].
      injection Es as -> _. cbn in Hc. intuition discriminate.
    - cbn [app] in Es. injection Es as _ Es. destruct Hr as [-> | (c & r' & -> & Hc)]; [discriminate|].
      injection Es as -> _. right. exact Hc.
    - cbn [app] in Es. injection Es as _ -> _. cbn [forallb] in Hw. left.
      apply andb_true_iff in Hw as [_ Hw]. apply andb_true_iff in Hw as [Hw _]. exact Hw. }
  destruct Hd as [Hd|Hd].
  - pose proof (wch_prefix_letter 10 d d ltac:(lia) Hd Hin) as E. rewrite Ascii.eqb_refl in E. discriminate.
  - cbn in Hin, Hd. intuition (subst; discriminate).
Qed.

Lemma all_in_app b x y : all_in b (x ++ y) = true -> all_in b x = true /\ all_in b y = true.
Proof. unfold all_in. rewrite forallb_app. intros H. apply andb_true_iff in H. exact H. Qed.

Lemma mantissa_backward sm b m k r : mantissa_text sm b m k -> tail_ok b r ->
  exists fc, nat_scan true (sm ++ r) = Some (m, b, fc, r) /\ (if fc <? 0 then fc else 0) = - Z.of_nat k.
Proof.
  intros H Hr. destruct H as [i ip n Hg Hn|i f ip fp n Hi Hf Hne Hn|b p i ip n Hp Hi Hn|b p i f ip fp n Hp Hi Hf Hne Hn].
  - apply based_iff in Hn as [Hall <-]; [|lia].
    pose proof (grouped_sepless _ _ Hg) as ->. apply all_wch in Hall.
    destruct (tail_stops _ _ Hr) as [Hst Hdot].
    rewrite nat_scan_decimal_true.
    + rewrite nstart_run by (try assumption; try lia; intros _; exact Hdot).
      pose proof (slen_ne i (proj2 (grouped_ne _ _ Hg))) as Hl. pose proof (slen_nonneg i).
      replace (0 + slen i =? 0) with false by lia. rewrite (grouped_ok _ _ _ Hg).
      exists (0 + slen i). split; [reflexivity|]. replace (0 + slen i <? 0) with false by lia. reflexivity.
    + intros E. apply app_eq_nil in E as [E _]. exact (proj1 (grouped_ne _ _ Hg) E).
    + apply no_prefix; [exact Hall|]. destruct Hr as [-> | (c & r' & -> & Hc & _)]; [left; reflexivity|].
      right. exists c, r'. split; [reflexivity|right; exact Hc].
  - apply based_iff in Hn as [Hall <-]; [|lia].
    destruct (maybe_ok PrevOther _ _ ltac:(discriminate) Hi) as [Ho1 ->].
    destruct (maybe_ok PrevOther _ _ ltac:(discriminate) Hf) as [Ho2 ->].
    apply all_in_app in Hall as [Ha1 Ha2]. apply all_wch in Ha1. apply all_wch in Ha2.
    destruct (tail_stops _ _ Hr) as [Hst Hdot].
    rewrite <- app_assoc. cbn [app]. rewrite nat_scan_decimal_true.
    + rewrite nstart_point by (try assumption; lia).
      replace (0 + slen i + slen f =? 0) with false.
      * rewrite Ho1, Ho2. cbn [andb]. eexists. split; [reflexivity|]. unfold slen.
        destruct (Z.ltb_spec (- Z.of_nat (length (sepless f))) 0); [reflexivity|lia].
      * symmetry. apply Z.eqb_neq. intros E. pose proof (slen_nonneg i). pose proof (slen_nonneg f).
        apply Hne. rewrite (slen_zero i), (slen_zero f) by lia. reflexivity.
    + intros E. apply app_eq_nil in E as [_ E]. discriminate.
    + apply no_prefix; [exact Ha1|]. right. exists "."%char, (f ++ r). split; [reflexivity|left; reflexivity].
  - assert (Hb : b <= 16) by (apply prefix_base in Hp; lia).
    apply based_iff in Hn as [Hall <-]; [|exact Hb].
    destruct (prefixed_ok _ _ Hi) as (Hok & -> & Hne). apply all_wch in Hall.
    destruct (tail_stops _ _ Hr) as [Hst Hdot].
    rewrite <- app_assoc, (nat_scan_prefix _ b) by exact Hp.
    rewrite nstart_run by (try assumption; intros _; exact Hdot).
    pose proof (slen_ne i Hne) as Hl. pose proof (slen_nonneg i).
    replace (0 + slen i =? 0) with false by lia. rewrite Hok.
    exists (0 + slen i). split; [reflexivity|]. replace (0 + slen i <? 0) with false by lia. reflexivity.
  - assert (Hb : b <= 16) by (apply prefix_base in Hp; lia).
    apply based_iff in Hn as [Hall <-]; [|exact Hb].
    assert (Hi' : sep_ok PrevDigit i = true /\ ip = sepless i).
    { destruct Hi as [Hi|[-> ->]]; [|split; reflexivity].
      destruct (prefixed_ok _ _ Hi) as (Hok & E & _). split; assumption. }
    destruct Hi' as [Ho1 ->].
    destruct (maybe_ok PrevOther _ _ ltac:(discriminate) Hf) as [Ho2 ->].
    apply all_in_app in Hall as [Ha1 Ha2]. apply all_wch in Ha1. apply all_wch in Ha2.
    destruct (tail_stops _ _ Hr) as [Hst Hdot].
    rewrite <- !app_assoc. cbn [app]. rewrite (nat_scan_prefix _ b) by exact Hp.
    rewrite nstart_point by (try assumption; lia).
    replace (0 + slen i + slen f =? 0) with false.
    + rewrite Ho1, Ho2. cbn [andb]. eexists. split; [reflexivity|]. unfold slen.
      destruct (Z.ltb_spec (- Z.of_nat (length (sepless f))) 0); [reflexivity|lia].
    + symmetry. apply Z.eqb_neq. intros E. pose proof (slen_nonneg i). pose proof (slen_nonneg f).
      apply Hne. rewrite (slen_zero i), (slen_zero f) by lia. reflexivity.
Qed.

(** ** Numerators and denominators *)

Lemma nstart_false_inv b pf p s m b' fc : b <= 16 -> nstart false b pf 0 p s = Some (m, b', fc, []) ->
  forallb (wch b) s = true /\ sep_ok p s = true /\
  ((sepless s <> [] /\ m = bval b 0 (sepless s)) \/ (pf = true /\ sepless s = [])).
Proof.
  intros Hb H. destruct (span_wch b s) as (w & r0 & -> & Hw & Hr0).
  rewrite nstart_run in H by (try assumption; discriminate).
  destruct (0 + slen w =? 0) eqn:E0.
  - destruct pf; [|discriminate]. destruct (sep_ok p w) eqn:Ep; [|discriminate].
    injection H as _ _ _ ->. rewrite app_nil_r. split; [exact Hw|]. split; [exact Ep|].
    right. split; [reflexivity|]. apply slen_zero. lia.
  - destruct (sep_ok p w) eqn:Ep; [|discriminate]. injection H as <- _ _ ->. rewrite app_nil_r.
    split; [exact Hw|]. split; [exact Ep|]. left. split; [|reflexivity].
    intros E. unfold slen in E0. rewrite E in E0. cbn in E0. discriminate.
Qed.

Lemma nstart_false_ok b pf p s : b <= 16 -> forallb (wch b) s = true -> sep_ok p s = true -> sepless s <> [] ->
  nstart false b pf 0 p s = Some (bval b 0 (sepless s), b, 0 + slen s, []).
Proof.
  intros Hb Hw Hok Hne. rewrite <- (app_nil_r s) at 1.
  rewrite nstart_run by (try assumption; try exact I; discriminate).
  pose proof (slen_ne s Hne). pose proof (slen_nonneg s).
  replace (0 + slen s =? 0) with false by lia. rewrite Hok. reflexivity.
Qed.

Lemma whole_forward s a b fc : nat_scan false s = Some (a, b, fc, []) -> whole_text s a.
Proof.
  intros H. destruct (prefixb s) eqn:Ep.
  - apply prefixb_inv in Ep as (b0 & p & t & Hp & ->). rewrite (nat_scan_prefix _ b0) in H by exact Hp.
    assert (Hb : b0 <= 16) by (apply prefix_base in Hp; lia).
    apply nstart_false_inv in H as (Hw & Hok & [[Hne ->]|[E _]]); [|discriminate|exact Hb].
    apply digit_prefixed in Hok as [Hok|[_ E]]; [|congruence].
    apply (whole_prefixed b0 p t (sepless t)); [exact Hp|exact Hok|].
    apply based_iff; [exact Hb|]. split; [apply wch_all; exact Hw|reflexivity].
  - destruct s as [|c s]; [discriminate|]. destruct (Ascii.eqb c "0") eqn:Ec.
    + apply Ascii.eqb_eq in Ec. subst c. destruct s as [|d s].
      * injection H as <- _ _. apply whole_zero.
      * rewrite nat_scan_octal in H by (try discriminate; exact Ep).
        apply nstart_false_inv in H as (Hw & Hok & [[Hne ->]|[_ E]]); [| |lia].
        -- apply digit_prefixed in Hok as [Hok|[E _]]; [|discriminate].
           apply (whole_octal _ (sepless (d :: s))); [exact Hok|].
           apply based_iff; [lia|]. split; [apply wch_all; exact Hw|reflexivity].
        -- apply digit_prefixed in Hok as [Hok|[E' _]]; [|discriminate].
           apply prefixed_ok in Hok as (_ & _ & Hne). congruence.
    + rewrite nat_scan_decimal_false in H by exact Ec.
      apply nstart_false_inv in H as (Hw & Hok & [[Hne ->]|[E _]]); [|discriminate|lia].
      apply other_grouped in Hok as [Hok|[E _]]; [|discriminate].
      apply (whole_decimal _ (sepless (c :: s))); [exact Hok| |].
      * cbn [hd_error]. intros E. injection E as ->. discriminate.
      * apply based_iff; [lia|]. split; [apply wch_all; exact Hw|reflexivity].
Qed.

Lemma whole_backward s a : whole_text s a -> exists b fc, nat_scan false s = Some (a, b, fc, []).
Proof.
  intros H. destruct H as [|s ds v Hg H0 Hv|s ds v Hg Hv|b p s ds v Hp Hg Hv].
  - do 2 eexists. reflexivity.
  - destruct (grouped_ne _ _ Hg) as [Hne Hdne]. pose proof (grouped_ok PrevOther _ _ Hg) as Hok.
    pose proof (grouped_sepless _ _ Hg) as ->. destruct s as [|c s]; [congruence|].
    apply based_iff in Hv as [Hall <-]; [|lia]. apply all_wch in Hall.
    rewrite nat_scan_decimal_false.
    + rewrite nstart_false_ok by (try assumption; lia). do 2 eexists. reflexivity.
    + destruct (Ascii.eqb_spec c "0") as [->|]; [|reflexivity]. elim H0. reflexivity.
  - destruct (prefixed_ok _ _ Hg) as (Hok & -> & Hne).
    apply based_iff in Hv as [Hall <-]; [|lia]. apply all_wch in Hall.
    assert (Hs : s <> []) by (intros ->; apply Hne; reflexivity).
    rewrite nat_scan_octal; [|exact Hs|].
    + rewrite nstart_false_ok by (try assumption; lia). do 2 eexists. reflexivity.
    + destruct s as [|d s]; [congruence|]. cbn [forallb] in Hall. apply andb_true_iff in Hall as [Hd _].
      cbn [prefixb]. change (Ascii.eqb "0" "0") with true. cbn [andb].
      destruct (existsb (Ascii.eqb d) (bs "bBoOxX")) eqn:E; [|reflexivity]. exfalso.
      apply existsb_exists in E as (x & Hin & Ex). apply Ascii.eqb_eq in Ex. subst x.
      pose proof (wch_prefix_letter 8 d d ltac:(lia) Hd Hin) as E. rewrite Ascii.eqb_refl in E. discriminate.
  - assert (Hb : b <= 16) by (apply prefix_base in Hp; lia).
    destruct (prefixed_ok _ _ Hg) as (Hok & -> & Hne).
    apply based_iff in Hv as [Hall <-]; [|exact Hb]. apply all_wch in Hall.
    rewrite (nat_scan_prefix _ b) by exact Hp.
    rewrite nstart_false_ok by assumption. do 2 eexists. reflexivity.
Qed.

(** ** Exponents *)

Lemma alnum_ten c : (alnum_val c <? 10) = is_digit c.
Proof. destruct c as [[] [] [] [] [] [] [] []]; vm_compute; reflexivity. Qed.

Lemma forallb_same (f g : ascii -> bool) (s : str) : (forall c, f c = g c) -> forallb f s = forallb g s.
Proof. intros H. induction s as [|c s IH]; [reflexivity|]. cbn [forallb]. rewrite H, IH. reflexivity. Qed.

Lemma exp_run w : forall ds p inv r, forallb (wch 10) w = true ->
  exp_loop ds p inv (w ++ r) = exp_loop (ds ++ sepless w) (lastk p w) (inv || badk p w) r.
Proof.
  induction w as [|c w IH]; intros ds p inv r Hw.
  - cbn [app]. unfold sepless, lastk. cbn [filter fold_left badk]. rewrite app_nil_r, orb_false_r. reflexivity.
  - cbn [forallb] in Hw. apply andb_true_iff in Hw as [Hc Hw]. unfold wch in Hc. rewrite alnum_ten in Hc.
    cbn [app exp_loop]. unfold sepless at 1. cbn [filter]. unfold lastk. cbn [fold_left badk].
    destruct (Ascii.eqb_spec c "_") as [->|Hu]; cbn [negb].
    + change (is_digit "_") with false. cbv iota. rewrite IH by exact Hw. f_equal.
      rewrite orb_assoc. reflexivity.
    + cbn [orb] in Hc. rewrite Hc. rewrite IH by exact Hw. rewrite <- app_assoc. reflexivity.
Qed.

Lemma exp_stop ds p inv r : stops 10 r -> exp_loop ds p inv r = (ds, inv || is_prev_sep p, r).
Proof.
  intros Hr. destruct r as [|c r]; [reflexivity|]. cbn [stops] in Hr. unfold wch in Hr. rewrite alnum_ten in Hr.
  apply orb_false_iff in Hr as [Hu Hd]. cbn [exp_loop]. rewrite Hd, Hu. reflexivity.
Qed.

Definition exp_go (base : Z) (s1 : str) : option (Z * Z * str) :=
  let '(neg, s2) := match s1 with
                    | d :: s2 => if Ascii.eqb d "-" then (true, s2)
                                 else if Ascii.eqb d "+" then (false, s2)
                                 else (false, s1)
                    | [] => (false, s1)
                    end in
  let '(digits, inval, rest) := exp_loop [] PrevOther false s2 in
  match digits with
  | [] => None
  | _ => match parse_int (if neg : bool then "-"%char :: digits else digits) with
         | None => None
         | Some e => if inval : bool then None else Some (e, base, rest)
         end
  end.

Lemma scan_exponent_eq c s : scan_exponent (c :: s) =
  if Ascii.eqb c "e" || Ascii.eqb c "E" then exp_go 10 s
  else if Ascii.eqb c "p" || Ascii.eqb c "P" then exp_go 2 s else Some (0, 10, c :: s).
Proof. reflexivity. Qed.

Definition exp_body (base : Z) (neg : bool) (s2 : str) : option (Z * Z * str) :=
  let '(digits, inval, rest) := exp_loop [] PrevOther false s2 in
  match digits with
  | [] => None
  | _ => match parse_int (if neg : bool then "-"%char :: digits else digits) with
         | None => None
         | Some e => if inval : bool then None else Some (e, base, rest)
         end
  end.

Lemma exp_go_cases base s : exists neg sign s2, s = sign ++ s2 /\
  ((neg = false /\ (sign = [] \/ sign = bs "+")) \/ (neg = true /\ sign = bs "-")) /\
  exp_go base s = exp_body base neg s2.
Proof.
  destruct s as [|d s].
  - exists false, [], []. split; [reflexivity|]. split; [auto|reflexivity].
  - unfold exp_go. destruct (Ascii.eqb_spec d "-") as [->|H1].
    + exists true, (bs "-"), s. split; [reflexivity|]. split; [auto|reflexivity].
    + destruct (Ascii.eqb_spec d "+") as [->|H2].
      * exists false, (bs "+"), s. split; [reflexivity|]. split; [auto|reflexivity].
      * exists false, [], (d :: s). split; [reflexivity|]. split; [auto|reflexivity].
Qed.

Lemma exp_body_inv base neg s2 e eb : exp_body base neg s2 = Some (e, eb, []) ->
  eb = base /\ grouped s2 (sepless s2) /\ digits (sepless s2) (dval (sepless s2)) /\
  e = (if neg then - dval (sepless s2) else dval (sepless s2)) /\ int64_range e.
Proof.
  unfold exp_body. destruct (span_wch 10 s2) as (w & r & -> & Hw & Hr).
  rewrite exp_run, exp_stop by assumption. cbn [app orb].
  intros H. assert (Hne : sepless w <> []) by (intros E; rewrite E in H; discriminate H).
  assert (H' : match parse_int (if neg then "-"%char :: sepless w else sepless w) with
               | Some e0 => if badk PrevOther w || is_prev_sep (lastk PrevOther w) then None else Some (e0, base, r)
               | None => None end = Some (e, eb, [])).
  { destruct (sepless w); [congruence|exact H]. }
  clear H. destruct (parse_int _) as [e0|] eqn:Epi; [|discriminate].
  destruct (badk PrevOther w || is_prev_sep (lastk PrevOther w)) eqn:Eb; [discriminate|].
  injection H' as -> -> ->. rewrite app_nil_r. split; [reflexivity|].
  assert (Hok : sep_ok PrevOther w = true) by (unfold sep_ok; rewrite Eb; reflexivity).
  apply other_grouped in Hok as [Hok|[_ E]]; [|congruence]. split; [exact Hok|].
  assert (Hd : forallb is_digit (sepless w) = true).
  { apply wch_all in Hw. unfold all_in in Hw. rewrite <- Hw. apply forallb_same. intros c. symmetry. apply alnum_ten. }
  split; [apply digits_iff; split; [exact Hd|reflexivity]|].
  apply parse_int_iff in Epi as [Hi Hr64]. split; [|exact Hr64].
  destruct Hi as (sign & body & n & Es & Hb & Hn & Hv). apply digits_iff in Hn as [Hbd <-].
  destruct neg.
  - destruct Hv as [[-> Hv]|[[-> Hv]|[-> Hv]]].
    + cbn [app] in Es. subst body. discriminate.
    + discriminate.
    + injection Es as <-. exact Hv.
  - destruct Hv as [[-> Hv]|[[-> Hv]|[-> Hv]]].
    + cbn [app] in Es. subst body. exact Hv.
    + rewrite Es in Hd. discriminate.
    + rewrite Es in Hd. discriminate.
Qed.

Lemma exp_body_ok base (neg : bool) s2 ds n e : grouped s2 ds -> digits ds n -> e = (if neg then - n else n) -> int64_range e ->
  exp_body base neg s2 = Some (e, base, []).
Proof.
  intros Hg Hn He Hr. unfold exp_body. pose proof (grouped_sepless _ _ Hg) as E. subst ds.
  destruct (grouped_ne _ _ Hg) as [_ Hne]. pose proof (grouped_ok PrevOther _ _ Hg) as Hok.
  destruct (proj1 (digits_iff _ _) Hn) as [Hd Hv].
  assert (Hw : forallb (wch 10) s2 = true).
  { apply all_wch. unfold all_in. rewrite <- Hd. apply forallb_same. intros c. apply alnum_ten. }
  rewrite <- (app_nil_r s2), exp_run, exp_stop by (try assumption; exact I). cbn [app orb].
  unfold sep_ok in Hok. apply negb_true_iff in Hok. rewrite Hok.
  assert (Hp : parse_int (if neg then "-"%char :: sepless s2 else sepless s2) = Some e).
  { apply parse_int_iff. split; [|exact Hr]. destruct neg.
    - exists (bs "-"), (sepless s2), n. split; [reflexivity|]. split; [exact Hne|]. split; [exact Hn|]. right; right. auto.
    - exists [], (sepless s2), n. split; [reflexivity|]. split; [exact Hne|]. split; [exact Hn|]. left. auto. }
  rewrite Hp. destruct (sepless s2); [congruence|reflexivity].
Qed.

Lemma exponent_forward b s e eb : stops b s -> scan_exponent s = Some (e, eb, []) -> exponent_text b s eb e.
Proof.
  intros Hst H. destruct s as [|c s].
  - injection H as <- <-. constructor.
  - rewrite scan_exponent_eq in H.
    assert (Hgo : forall base, exp_go base s = Some (e, eb, []) -> eb = base /\
      exists sign s2 ds n, s = sign ++ s2 /\ grouped s2 ds /\ digits ds n /\ exponent_value sign n e /\ int64_range e).
    { intros base Hb. destruct (exp_go_cases base s) as (neg & sign & s2 & -> & Hs & E). rewrite E in Hb.
      apply exp_body_inv in Hb as (-> & Hg & Hd & He & Hr). split; [reflexivity|].
      exists sign, s2, (sepless s2), (dval (sepless s2)). split; [reflexivity|]. split; [exact Hg|].
      split; [exact Hd|]. split; [|exact Hr]. unfold exponent_value.
      destruct Hs as [[-> Hs]|[-> Hs]]; [left; auto|right; auto]. }
    destruct (Ascii.eqb c "e" || Ascii.eqb c "E") eqn:E1.
    + apply Hgo in H as (-> & sign & s2 & ds & n & -> & Hg & Hd & Hv & Hr).
      assert (Hc : c = "e"%char \/ c = "E"%char).
      { apply orb_true_iff in E1 as [E1|E1]; apply Ascii.eqb_eq in E1; auto. }
      apply (exponent_ten b c sign s2 ds n e); try assumption.
      intros ->. cbn [stops] in Hst. destruct Hc as [-> | ->]; vm_compute in Hst; discriminate.
    + destruct (Ascii.eqb c "p" || Ascii.eqb c "P") eqn:E2; [|discriminate].
      apply Hgo in H as (-> & sign & s2 & ds & n & -> & Hg & Hd & Hv & Hr).
      apply (exponent_two b c sign s2 ds n e); try assumption.
      apply orb_true_iff in E2 as [E2|E2]; apply Ascii.eqb_eq in E2; auto.
Qed.

Lemma grouped_digit_head s ds n : grouped s ds -> digits ds n -> exists c t, s = c :: t /\ is_digit c = true.
Proof.
  intros Hg Hd. apply digits_iff in Hd as [Hd _].
  assert (Hx : forall x r, x <> [] -> forallb is_digit (x ++ r) = true -> exists c t, x = c :: t /\ is_digit c = true).
  { intros x r Hne H. destruct x as [|c t]; [congruence|]. cbn [app forallb] in H.
    apply andb_true_iff in H as [Hc _]. exists c, t. split; [reflexivity|exact Hc]. }
  destruct Hg as [ds Hne Hno|ds s es Hne Hno Hg].
  - apply (Hx ds []); [exact Hne|]. rewrite app_nil_r. exact Hd.
  - destruct (Hx ds es Hne Hd) as (c & t & -> & Hc). exists c, (t ++ "_"%char :: s). split; [reflexivity|exact Hc].
Qed.

Lemma exp_go_ok base sign s ds n e : grouped s ds -> digits ds n -> exponent_value sign n e -> int64_range e ->
  exp_go base (sign ++ s) = Some (e, base, []).
Proof.
  intros Hg Hd Hv Hr.
  destruct Hv as [[[-> | ->] ->]|[-> ->]].
  - destruct (grouped_digit_head _ _ _ Hg Hd) as (c & t & -> & Hc). cbn [app].
    unfold exp_go. rewrite (digit_not c "-"), (digit_not c "+") by (try exact Hc; cbn; lia).
    apply (exp_body_ok base false (c :: t) ds n n Hg Hd eq_refl Hr).
  - apply (exp_body_ok base false s ds n n Hg Hd eq_refl Hr).
  - apply (exp_body_ok base true s ds n (- n) Hg Hd eq_refl Hr).
Qed.

Lemma exponent_backward b s e eb : exponent_text b s eb e -> scan_exponent s = Some (e, eb, []).
Proof.
  intros H. destruct H as [|c sign s ds n e Hc Hb Hg Hd Hv Hr|c sign s ds n e Hc Hg Hd Hv Hr]; [reflexivity| |];
    rewrite scan_exponent_eq; (destruct Hc as [-> | ->]; cbv [Ascii.eqb Bool.eqb orb]; cbv iota;
      exact (exp_go_ok _ _ _ _ _ _ Hg Hd Hv Hr)).
Qed.

Lemma exponent_tail b s e eb : b <= 16 -> (b = 2 \/ b = 8 \/ b = 10 \/ b = 16) -> exponent_text b s eb e -> tail_ok b s.
Proof.
  intros Hb Hbase H. destruct H as [|c sign s ds n e Hc Hb16 Hg Hd Hv Hr|c sign s ds n e Hc Hg Hd Hv Hr]; [left; reflexivity| |];
    right; exists c, (sign ++ s); (split; [reflexivity|]).
  - destruct Hc as [-> | ->]; (split; [cbn; tauto|]); unfold wch;
      [change (alnum_val "e") with 14|change (alnum_val "E") with 14]; cbn [Ascii.eqb Bool.eqb orb]; lia.
  - destruct Hc as [-> | ->]; (split; [cbn; tauto|]); unfold wch;
      [change (alnum_val "p") with 25|change (alnum_val "P") with 25]; cbn [Ascii.eqb Bool.eqb orb]; lia.
Qed.

(** ** The value *)

Lemma Qpower_pos_max (p z : Z) : 0 < p ->
  (inject_Z p ^ z == inject_Z (p ^ Z.max 0 z) / inject_Z (p ^ Z.max 0 (- z)))%Q.
Proof.
  intros Hp. assert (Hne : ~ (inject_Z p == 0)%Q).
  { unfold inject_Z, Qeq. cbn [Qnum Qden]. lia. }
  destruct (Z.le_gt_cases 0 z) as [Hz|Hz].
  - replace (Z.max 0 z) with z by lia. replace (Z.max 0 (- z)) with 0 by lia.
    rewrite Z.pow_0_r, <- Zpower_Qpower by exact Hz. change (inject_Z 1) with 1%Q. field.
  - replace (Z.max 0 z) with 0 by lia. replace (Z.max 0 (- z)) with (- z) by lia.
    rewrite Z.pow_0_r, (Zpower_Qpower p (- z)) by lia. change (inject_Z 1) with 1%Q.
    rewrite Qpower_opp. field. apply Qpower_not_0. exact Hne.
Qed.

Lemma scale_rat_value m e5 e2 : scale_rat m e5 e2 = Qred (inject_Z m * inject_Z 5 ^ e5 * inject_Z 2 ^ e2)%Q.
Proof.
  unfold scale_rat.
  assert (H5 : 0 < 5 ^ Z.max 0 (- e5)) by (apply Z.pow_pos_nonneg; lia).
  assert (H2 : 0 < 2 ^ Z.max 0 (- e2)) by (apply Z.pow_pos_nonneg; lia).
  rewrite Qred_div by lia. apply Qred_complete.
  rewrite (Qpower_pos_max 5 e5), (Qpower_pos_max 2 e2) by lia.
  rewrite !inject_Z_mult. field. unfold inject_Z, Qeq. cbn [Qnum Qden]. lia.
Qed.

Lemma two_ne : ~ (inject_Z 2 == 0)%Q. Proof. discriminate. Qed.
Lemma five_ne : ~ (inject_Z 5 == 0)%Q. Proof. discriminate. Qed.

Lemma base_power b z : b = 2 \/ b = 8 \/ b = 10 \/ b = 16 ->
  (inject_Z b ^ z == inject_Z 5 ^ (fives_in b * z) * inject_Z 2 ^ (twos_in b * z))%Q.
Proof.
  intros [-> | [-> | [-> | ->]]]; unfold fives_in, twos_in;
    cbn [Z.eqb Pos.eqb]; rewrite ?Z.mul_1_l, ?Z.mul_0_l.
  - change (inject_Z 5 ^ 0)%Q with 1%Q. rewrite Qmult_1_l. reflexivity.
  - change (inject_Z 5 ^ 0)%Q with 1%Q. rewrite Qmult_1_l, Qpower_mult. reflexivity.
  - rewrite <- Qmult_power. reflexivity.
  - change (inject_Z 5 ^ 0)%Q with 1%Q. rewrite Qmult_1_l, Qpower_mult. reflexivity.
Qed.

Lemma scaled_value n b eb k e : b = 2 \/ b = 8 \/ b = 10 \/ b = 16 -> eb = 2 \/ eb = 10 ->
  (inject_Z n * inject_Z b ^ (- Z.of_nat k) * inject_Z eb ^ e ==
   inject_Z n * inject_Z 5 ^ (fives_in eb * e - fives_in b * Z.of_nat k) *
   inject_Z 2 ^ (e - twos_in b * Z.of_nat k))%Q.
Proof.
  intros Hb Heb. rewrite (base_power b), (base_power eb) by (try assumption; lia).
  replace (fives_in eb * e - fives_in b * Z.of_nat k) with (fives_in b * - Z.of_nat k + fives_in eb * e) by lia.
  assert (E : e - twos_in b * Z.of_nat k = twos_in b * - Z.of_nat k + twos_in eb * e).
  { destruct Heb as [-> | ->]; unfold twos_in at 3; cbn [Z.eqb Pos.eqb]; lia. }
  rewrite E, !Qpower_plus by (first [exact two_ne|exact five_ne]). ring.
Qed.

Lemma mantissa_base sm b n k : mantissa_text sm b n k -> b = 2 \/ b = 8 \/ b = 10 \/ b = 16.
Proof. intros H. destruct H as [| |b p i ip n Hp|b p i f ip fp n Hp]; auto; apply prefix_base in Hp; tauto. Qed.

Lemma exponent_base b s eb e : exponent_text b s eb e -> eb = 2 \/ eb = 10.
Proof. intros H. destruct H; auto. Qed.

(** ** Signs and characters *)

Lemma scan_sign_cases s neg s1 : scan_sign s = Some (neg, s1) -> exists sign, s = sign ++ s1 /\
  ((neg = false /\ (sign = [] \/ sign = bs "+")) \/ (neg = true /\ sign = bs "-")).
Proof.
  destruct s as [|c s]; [discriminate|]. cbn [scan_sign].
  destruct (Ascii.eqb_spec c "-") as [->|H1].
  - intros H. injection H as <- <-. exists (bs "-"). split; [reflexivity|auto].
  - destruct (Ascii.eqb_spec c "+") as [->|H2]; intros H; injection H as <- <-.
    + exists (bs "+"). split; [reflexivity|auto].
    + exists []. split; [reflexivity|auto].
Qed.

(** The characters of numbers. *)
Definition numch (c : ascii) : bool := (alnum_val c <? 36) || Ascii.eqb c "_" || Ascii.eqb c ".".

Lemma wch_numch b c : b <= 16 -> wch b c = true -> numch c = true.
Proof. unfold wch, numch. intros Hb H. apply orb_true_iff in H as [H|H]; [rewrite H; apply orb_true_iff; left; apply orb_true_r|]. replace (alnum_val c <? 36) with true by lia. reflexivity. Qed.

Lemma based_numch b s ds v : b <= 16 -> based b ds v -> ds = sepless s -> forallb numch s = true.
Proof.
  intros Hb Hv ->. apply based_iff in Hv as [Hall _]; [|exact Hb]. apply all_wch in Hall.
  apply forallb_forall. intros c Hc. rewrite forallb_forall in Hall. apply (wch_numch b); [exact Hb|]. apply Hall, Hc.
Qed.

Lemma based_app_l b x y v : b <= 16 -> based b (x ++ y) v -> (exists v', based b x v') /\ (exists v', based b y v').
Proof.
  intros Hb H. apply based_iff in H as [Hall _]; [|exact Hb]. apply all_in_app in Hall as [H1 H2].
  split; eexists; apply based_iff; try exact Hb; split; try assumption; reflexivity.
Qed.

Lemma prefix_numch b p : base_prefix b p -> forallb numch p = true.
Proof. intros H. destruct H; reflexivity. Qed.

Lemma maybe_sepless s ds : maybe_grouped s ds -> ds = sepless s.
Proof. intros [H|[-> ->]]; [exact (grouped_sepless _ _ H)|reflexivity]. Qed.

Lemma mantissa_numch sm b n k : mantissa_text sm b n k -> forallb numch sm = true /\ sm <> [].
Proof.
  intros H. destruct H as [i ip n Hg Hn|i f ip fp n Hi Hf Hne Hn|b p i ip n Hp Hi Hn|b p i f ip fp n Hp Hi Hf Hne Hn].
  - split; [|exact (proj1 (grouped_ne _ _ Hg))].
    apply (based_numch 10 i ip n); [lia|exact Hn|exact (grouped_sepless _ _ Hg)].
  - split; [|intros E; apply app_eq_nil in E as [_ E]; discriminate].
    apply based_app_l in Hn as [[v1 H1] [v2 H2]]; [|lia].
    rewrite forallb_app. cbn [forallb]. change (numch ".") with true. cbn [andb]. apply andb_true_iff. split.
    + apply (based_numch 10 i ip v1); [lia|exact H1|apply maybe_sepless; exact Hi].
    + apply (based_numch 10 f fp v2); [lia|exact H2|apply maybe_sepless; exact Hf].
  - assert (Hb : b <= 16) by (apply prefix_base in Hp; lia). split.
    + rewrite forallb_app, (prefix_numch _ _ Hp). apply (based_numch b i ip n); [exact Hb|exact Hn|].
      exact (proj1 (proj2 (prefixed_ok _ _ Hi))).
    + destruct Hp; discriminate.
  - assert (Hb : b <= 16) by (apply prefix_base in Hp; lia). split.
    + apply based_app_l in Hn as [[v1 H1] [v2 H2]]; [|exact Hb].
      rewrite !forallb_app, (prefix_numch _ _ Hp). cbn [forallb]. change (numch ".") with true. cbn [andb].
      apply andb_true_iff. split.
      * apply (based_numch b i ip v1); [exact Hb|exact H1|].
        destruct Hi as [Hi|[-> ->]]; [exact (proj1 (proj2 (prefixed_ok _ _ Hi)))|reflexivity].
      * apply (based_numch b f fp v2); [exact Hb|exact H2|apply maybe_sepless; exact Hf].
    + destruct Hp; discriminate.
Qed.

Lemma whole_numch s a : whole_text s a -> forallb numch s = true /\ s <> [].
Proof.
  intros H. destruct H as [|s ds v Hg H0 Hv|s ds v Hg Hv|b p s ds v Hp Hg Hv].
  - split; [reflexivity|discriminate].
  - split; [|exact (proj1 (grouped_ne _ _ Hg))].
    apply (based_numch 10 s ds v); [lia|exact Hv|exact (grouped_sepless _ _ Hg)].
  - split; [|discriminate]. cbn [forallb]. change (numch "0") with true. cbn [andb].
    apply (based_numch 8 s ds v); [lia|exact Hv|exact (proj1 (proj2 (prefixed_ok _ _ Hg)))].
  - assert (Hb : b <= 16) by (apply prefix_base in Hp; lia). split; [|destruct Hp; discriminate].
    rewrite forallb_app, (prefix_numch _ _ Hp). apply (based_numch b s ds v); [exact Hb|exact Hv|].
    exact (proj1 (proj2 (prefixed_ok _ _ Hg))).
Qed.

Lemma scan_sign_ok sign neg s : (neg = false /\ (sign = [] \/ sign = bs "+")) \/ (neg = true /\ sign = bs "-") ->
  (exists c t, s = c :: t /\ numch c = true) -> scan_sign (sign ++ s) = Some (neg, s).
Proof.
  intros Hs (c & t & -> & Hc). destruct Hs as [[-> [-> | ->]]|[-> ->]]; try reflexivity. cbn [app scan_sign].
  destruct (Ascii.eqb_spec c "-") as [->|_]; [discriminate|].
  destruct (Ascii.eqb_spec c "+") as [->|_]; [discriminate|]. reflexivity.
Qed.

Lemma numch_head s r : forallb numch s = true -> s <> [] -> exists c t, s ++ r = c :: t /\ numch c = true.
Proof.
  intros H Hne. destruct s as [|c t]; [congruence|]. cbn [forallb] in H. apply andb_true_iff in H as [Hc _].
  exists c, (t ++ r). split; [reflexivity|exact Hc].
Qed.

Lemma numch_no_slash s : forallb numch s = true -> ~ In "/"%char s.
Proof. intros H Hin. rewrite forallb_forall in H. specialize (H _ Hin). discriminate. Qed.

Lemma signed_neg sign q x : signed sign q x -> exists neg : bool,
  ((neg = false /\ (sign = [] \/ sign = bs "+")) \/ (neg = true /\ sign = bs "-")) /\
  (x == if neg then - q else q)%Q.
Proof.
  intros [[Hs Hx]|[Hs Hx]]; [exists false|exists true]; (split; [|exact Hx]); [left; auto|right; auto].
Qed.

Lemma neg_signed (neg : bool) sign q :
  (neg = false /\ (sign = [] \/ sign = bs "+")) \/ (neg = true /\ sign = bs "-") ->
  signed sign q (if neg then - q else q)%Q.
Proof. intros [[-> Hs]|[-> Hs]]; [left|right]; (split; [exact Hs|reflexivity]). Qed.

Lemma sign_no_slash sign (neg : bool) :
  (neg = false /\ (sign = [] \/ sign = bs "+")) \/ (neg = true /\ sign = bs "-") -> ~ In "/"%char sign.
Proof. intros [[_ [-> | ->]]|[_ ->]]; cbn; intuition discriminate. Qed.

Lemma exponent_no_slash b s eb e : exponent_text b s eb e -> ~ In "/"%char s.
Proof.
  intros H. destruct H as [|c sign s ds n e Hc Hb Hg Hd Hv Hr|c sign s ds n e Hc Hg Hd Hv Hr]; [intros []| |];
  (assert (Hsign : ~ In "/"%char sign) by (destruct Hv as [[[-> | ->] _]|[-> _]]; cbn; intuition discriminate);
   assert (Hs : ~ In "/"%char s);
   [ pose proof (grouped_sepless _ _ Hg) as E; subst ds; apply digits_iff in Hd as [Hd _]; intros Hin;
     rewrite forallb_forall in Hd; assert (Hf : In "/"%char (sepless s)) by (apply filter_In; split; [exact Hin|reflexivity]);
     specialize (Hd _ Hf); discriminate
   | intros [E|Hin]; [destruct Hc; congruence|]; apply in_app_or in Hin as [Hin|Hin]; [exact (Hsign Hin)|exact (Hs Hin)] ]).
Qed.

(** ** Rat.SetString *)

Definition set_fraction (na db : str) : option Q :=
  match scan_sign na with
  | None => None
  | Some (neg, n1) =>
      match nat_scan false n1, nat_scan false db with
      | Some (a, _, _, []), Some (b, _, _, []) =>
          if b =? 0 then None
          else Some (Qred (Qmake (if neg : bool then - a else a) (Z.to_pos b)))
      | _, _ => None
      end
  end.

Definition finish (neg : bool) (mant base fcount exp ebase : Z) : option Q :=
  if mant =? 0 then Some (Qmake 0 1)
  else
    let d := if fcount <? 0 then fcount else 0 in
    let fexp5 := if base =? 10 then d else 0 in
    let fexp2 := if base =? 8 then d * 3 else if base =? 16 then d * 4 else d in
    let exp5 := if ebase =? 10 then fexp5 + exp else fexp5 in
    let exp2 := fexp2 + exp in
    if 1000000 <? Z.abs exp5 then None
    else if 10000000 <? Z.abs exp2 then None
    else Some (scale_rat (if neg : bool then - mant else mant) exp5 exp2).

Definition set_float (s : str) : option Q :=
  match scan_sign s with
  | None => None
  | Some (neg, s1) =>
      match nat_scan true s1 with
      | None => None
      | Some (mant, base, fcount, s2) =>
          match scan_exponent s2 with
          | Some (exp, ebase, []) => finish neg mant base fcount exp ebase
          | _ => None
          end
      end
  end.

Lemma rat_set_string_eq s : rat_set_string s =
  match split2 (bs "/") s with Some (na, db) => set_fraction na db | None => set_float s end.
Proof. destruct s as [|c s]; reflexivity. Qed.

Lemma finish_value neg n b fc e eb k :
  b = 2 \/ b = 8 \/ b = 10 \/ b = 16 -> eb = 2 \/ eb = 10 ->
  (if fc <? 0 then fc else 0) = - Z.of_nat k -> n <> 0 ->
  finish neg n b fc e eb =
    if 1000000 <? Z.abs (fives_in eb * e - fives_in b * Z.of_nat k) then None
    else if 10000000 <? Z.abs (e - twos_in b * Z.of_nat k) then None
    else Some (Qred (if neg then - (inject_Z n * inject_Z b ^ (- Z.of_nat k) * inject_Z eb ^ e)
                     else inject_Z n * inject_Z b ^ (- Z.of_nat k) * inject_Z eb ^ e))%Q.
Proof.
  intros Hb Heb Hfc Hn. unfold finish. cbv zeta. rewrite Hfc.
  replace (n =? 0) with false by lia.
  set (d := - Z.of_nat k).
  assert (E5 : (if eb =? 10 then (if b =? 10 then d else 0) + e else (if b =? 10 then d else 0)) =
    fives_in eb * e - fives_in b * Z.of_nat k).
  { unfold fives_in. destruct (eb =? 10), (b =? 10); unfold d; lia. }
  assert (E2 : (if b =? 8 then d * 3 else if b =? 16 then d * 4 else d) + e = e - twos_in b * Z.of_nat k).
  { unfold twos_in, d. destruct Hb as [-> | [-> | [-> | ->]]]; cbn [Z.eqb Pos.eqb]; lia. }
  rewrite E5, E2.
  destruct (1000000 <? _); [reflexivity|]. destruct (10000000 <? _); [reflexivity|].
  f_equal. rewrite scale_rat_value. apply Qred_complete. unfold d. clear E5 E2 d. destruct neg.
  - rewrite inject_Z_opp, (scaled_value n b eb k e Hb Heb). ring.
  - rewrite (scaled_value n b eb k e Hb Heb). reflexivity.
Qed.

Lemma fraction_value (neg : bool) a b : 0 < b ->
  Qred (Qmake (if neg then - a else a) (Z.to_pos b)) =
  Qred (if neg then - (inject_Z a / inject_Z b) else inject_Z a / inject_Z b)%Q.
Proof.
  intros Hb. rewrite Qred_div by exact Hb. apply Qred_complete. destruct neg; [|reflexivity].
  rewrite inject_Z_opp. unfold Qdiv. ring.
Qed.

Lemma bval_nonneg b acc ds : 0 <= b -> 0 <= acc -> 0 <= bval b acc ds.
Proof.
  intros Hb. unfold bval. revert acc. induction ds as [|c ds IH]; intros acc Ha; [exact Ha|].
  cbn [fold_left]. apply IH. pose proof (alnum_nonneg c). nia.
Qed.

Lemma whole_nonneg s a : whole_text s a -> 0 <= a.
Proof.
  intros H. destruct H as [|s ds v Hg H0 Hv|s ds v Hg Hv|b p s ds v Hp Hg Hv]; [lia| | |].
  - apply based_iff in Hv as [_ <-]; [|lia]. apply bval_nonneg; lia.
  - apply based_iff in Hv as [_ <-]; [|lia]. apply bval_nonneg; lia.
  - apply prefix_base in Hp. apply based_iff in Hv as [_ <-]; [|lia]. apply bval_nonneg; lia.
Qed.

Lemma number_exact s y : rat_set_string s = Some y <-> exists x, number_text s x /\ y = Qred x.
Proof.
  rewrite rat_set_string_eq. split.
  - destruct (split2 (bs "/") s) as [[na db]|] eqn:Esp.
    + change (bs "/") with ["/"%char] in Esp. apply split2_some in Esp as ->. unfold set_fraction.
      destruct (scan_sign na) as [[neg n1]|] eqn:Es; [|discriminate].
      apply scan_sign_cases in Es as (sign & -> & Hs).
      destruct (nat_scan false n1) as [[[[a ba] ca] ra]|] eqn:Ea; [|discriminate].
      destruct ra; [|discriminate].
      destruct (nat_scan false db) as [[[[b bb] cb] rb]|] eqn:Eb; [|discriminate].
      destruct rb; [|discriminate].
      destruct (b =? 0) eqn:E0; [discriminate|].
      apply whole_forward in Ea. apply whole_forward in Eb. pose proof (whole_nonneg _ _ Eb).
      rewrite fraction_value by lia. intros Hy.
      exists (if neg then - (inject_Z a / inject_Z b) else inject_Z a / inject_Z b)%Q. split; [|congruence].
      rewrite <- app_assoc. apply (number_fraction sign n1 db a b); [exact Ea|exact Eb|lia|].
      apply neg_signed. exact Hs.
    + unfold set_float. destruct (scan_sign s) as [[neg s1]|] eqn:Es; [|discriminate].
      apply scan_sign_cases in Es as (sign & -> & Hs).
      destruct (nat_scan true s1) as [[[[n b] fc] s2]|] eqn:Em; [|discriminate].
      apply mantissa_forward in Em as (sm & k & -> & Hm & Hst & Hk).
      destruct (scan_exponent s2) as [[[e eb] r]|] eqn:Ee; [|discriminate].
      destruct r; [|discriminate]. apply (exponent_forward b) in Ee; [|exact Hst].
      pose proof (mantissa_base _ _ _ _ Hm) as Hb. pose proof (exponent_base _ _ _ _ Ee) as Heb.
      destruct (Z.eq_dec n 0) as [->|Hn].
      * intros H. change (Some (0 # 1) = Some y) in H. injection H as <-. exists (if neg then - 0 else 0)%Q.
        split; [|destruct neg; reflexivity].
        apply (number_zero sign sm s2 b k eb e); [exact Hm|exact Ee|]. apply neg_signed. exact Hs.
      * rewrite (finish_value neg n b fc e eb k Hb Heb Hk Hn).
        destruct (Z.ltb_spec 1000000 (Z.abs (fives_in eb * e - fives_in b * Z.of_nat k))) as [|H5]; [discriminate|].
        destruct (Z.ltb_spec 10000000 (Z.abs (e - twos_in b * Z.of_nat k))) as [|H2]; [discriminate|].
        intros Hy. eexists. split; [|symmetry; exact (f_equal (fun o => match o with Some q => q | None => 0%Q end) Hy)].
        apply (number_scaled sign sm s2 b n k eb e); [exact Hm|exact Ee|split; assumption|].
        apply neg_signed. exact Hs.
  - intros (x & H & ->). destruct H as [sign sa sb a b x Ha Hb Hb0 Hx|sign sm se b k eb e x Hm He Hx|sign sm se b n k eb e x Hm He Hr Hx].
    + apply signed_neg in Hx as (neg & Hs & Hx).
      destruct (whole_numch _ _ Ha) as [Hna Hane]. pose proof (whole_nonneg _ _ Hb) as Hbn.
      rewrite app_assoc. change (bs "/") with ["/"%char]. rewrite split2_char.
      * unfold set_fraction. rewrite (scan_sign_ok sign neg sa Hs).
        -- destruct (whole_backward _ _ Ha) as (b1 & c1 & ->). destruct (whole_backward _ _ Hb) as (b2 & c2 & ->).
           replace (b =? 0) with false by lia. rewrite fraction_value by lia. f_equal. apply Qred_complete.
           rewrite Hx. reflexivity.
        -- destruct (numch_head sa [] Hna Hane) as (c & t & E & Hc). rewrite app_nil_r in E. exists c, t. auto.
      * intros Hin. apply in_app_or in Hin as [Hin|Hin]; [exact (sign_no_slash _ _ Hs Hin)|exact (numch_no_slash _ Hna Hin)].
    + apply signed_neg in Hx as (neg & Hs & Hx). destruct (mantissa_numch _ _ _ _ Hm) as [Hnm Hmne].
      change (bs "/") with ["/"%char]. rewrite split2_none.
      * unfold set_float. rewrite (scan_sign_ok sign neg (sm ++ se) Hs) by (apply numch_head; assumption).
        pose proof (mantissa_base _ _ _ _ Hm) as Hbase.
        destruct (mantissa_backward sm b 0 k se Hm) as (fc & -> & Hk).
        { apply (exponent_tail b se e eb); [lia|exact Hbase|exact He]. }
        rewrite (exponent_backward _ _ _ _ He). unfold finish. change (0 =? 0) with true. cbv iota.
        f_equal. change (0 # 1) with (Qred 0). apply Qred_complete. rewrite Hx. destruct neg; reflexivity.
      * intros Hin. apply in_app_or in Hin as [Hin|Hin]; [exact (sign_no_slash _ _ Hs Hin)|].
        apply in_app_or in Hin as [Hin|Hin]; [exact (numch_no_slash _ Hnm Hin)|exact (exponent_no_slash _ _ _ _ He Hin)].
    + apply signed_neg in Hx as (neg & Hs & Hx). destruct (mantissa_numch _ _ _ _ Hm) as [Hnm Hmne].
      change (bs "/") with ["/"%char]. rewrite split2_none.
      * unfold set_float. rewrite (scan_sign_ok sign neg (sm ++ se) Hs) by (apply numch_head; assumption).
        pose proof (mantissa_base _ _ _ _ Hm) as Hbase.
        destruct (mantissa_backward sm b n k se Hm) as (fc & -> & Hk).
        { apply (exponent_tail b se e eb); [lia|exact Hbase|exact He]. }
        rewrite (exponent_backward _ _ _ _ He).
        destruct (Z.eq_dec n 0) as [->|Hn].
        -- unfold finish. change (0 =? 0) with true. cbv iota.
           f_equal. change (0 # 1) with (Qred 0). apply Qred_complete. rewrite Hx.
           destruct neg; change (inject_Z 0) with 0%Q; rewrite !Qmult_0_l; reflexivity.
        -- rewrite (finish_value neg n b fc e eb k Hbase (exponent_base _ _ _ _ He) Hk Hn).
           destruct Hr as [H5 H2].
           replace (1000000 <? _) with false by lia. replace (10000000 <? _) with false by lia.
           f_equal. apply Qred_complete. rewrite Hx. reflexivity.
      * intros Hin. apply in_app_or in Hin as [Hin|Hin]; [exact (sign_no_slash _ _ Hs Hin)|].
        apply in_app_or in Hin as [Hin|Hin]; [exact (numch_no_slash _ Hnm Hin)|exact (exponent_no_slash _ _ _ _ He Hin)].
Qed.

Lemma comma_replace s t : comma_as_point s t <-> t = replace_first "," "." s.
Proof.
  split.
  - intros [[Hno ->]|(a & r & Hno & -> & ->)]; symmetry; [apply replace_first_none, Hno|apply replace_first_app, Hno].
  - intros ->. destruct (in_dec ascii_dec ","%char s) as [Hin|Hno].
    + right. revert Hin. induction s as [|c s IH]; [intros []|]. intros Hin.
      destruct (ascii_dec c ","%char) as [->|Hc].
      * exists [], s. split; [intros []|]. split; reflexivity.
      * destruct Hin as [E|Hin]; [congruence|]. destruct (IH Hin) as (a & r & Hno & E1 & E2).
        exists (c :: a), r. split; [intros [E|H]; [congruence|exact (Hno H)]|].
        split; [cbn [app]; congruence|]. cbn [replace_first app].
        destruct (Ascii.eqb_spec c ",") as [E|_]; [congruence|]. f_equal. exact E2.
    + left. split; [exact Hno|apply replace_first_none, Hno].
Qed.

Lemma amount_exact s y : amount_unmarshal s = Some y <-> exists x, amount_text s x /\ y = Qred x.
Proof.
  unfold amount_unmarshal. rewrite number_exact. split.
  - intros (x & H & ->). exists x. split; [|reflexivity].
    exists (trim_space s), (replace_first "," "." (trim_space s)).
    split; [apply trim_space_iff; reflexivity|]. split; [apply comma_replace; reflexivity|exact H].
  - intros (x & (t & u & Ht & Hu & H) & ->). apply trim_space_iff in Ht. apply comma_replace in Hu.
    subst t u. exists x. split; [exact H|reflexivity].
Qed.

Lemma amount_none s : amount_unmarshal s = None <-> forall x, ~ amount_text s x.
Proof.
  split.
  - intros H x Hx. assert (E : amount_unmarshal s = Some (Qred x)) by (apply amount_exact; exists x; auto). congruence.
  - intros H. destruct (amount_unmarshal s) as [y|] eqn:E; [|reflexivity].
    apply amount_exact in E as (x & Hx & _). elim (H x Hx).
Qed.

Lemma amount_unique s x y : amount_text s x -> amount_text s y -> (x == y)%Q.
Proof.
  intros Hx Hy. assert (Ex : amount_unmarshal s = Some (Qred x)) by (apply amount_exact; exists x; auto).
  assert (Ey : amount_unmarshal s = Some (Qred y)) by (apply amount_exact; exists y; auto).
  rewrite <- (Qred_correct x), <- (Qred_correct y). rewrite Ex in Ey. injection Ey as ->. reflexivity.
Qed.
