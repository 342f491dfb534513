(** Which dates that were written can be read again. *)
From Coq Require Import Lia.
From Verif Require Import GoStr SpecStr SpecNum SpecDate SpecDateText GoStrFacts GoNum GoNumFacts GoRat GoTime TimeFacts Types DateFacts DateTextFacts SpecReread.
Local Open Scope Z_scope.

Definition printed (off : Z) (n : str) : str :=
  (if off <? 0 then fmt_plus_d (Z.quot off 3600) else fmt_d (Z.quot off 3600)) ++
  (if 0 <? Z.quot (Z.rem off 3600) 36 then "."%char :: fmt_02d (Z.quot (Z.rem off 3600) 36)
   else if Z.quot (Z.rem off 3600) 36 <? 0 then "."%char :: fmt_02d (- Z.quot (Z.rem off 3600) 36) else []) ++
  name_suffix n.

Lemma printed_parts off n : -90000 < off < 90000 -> exists h m sh sm,
  integer sh h /\ -24 <= h <= 24 /\ minutes_text m sm /\ printed off n = sh ++ sm ++ name_suffix n.
Proof.
  intros Hb. assert (Hq : -24 <= Z.quot off 3600 <= 24) by (Z.to_euclidean_division_equations; lia).
  assert (Hf : -100 < Z.quot (Z.rem off 3600) 36 < 100).
  { assert (-3600 < Z.rem off 3600 < 3600) by (Z.to_euclidean_division_equations; lia). Z.to_euclidean_division_equations; lia. }
  assert (Hs : off < 0 -> Z.quot off 3600 <= 0) by (Z.to_euclidean_division_equations; lia).
  unfold printed. set (q := Z.quot off 3600) in *. set (f := Z.quot (Z.rem off 3600) 36) in *. clearbody q f.
  assert (Hint : integer (if off <? 0 then fmt_plus_d q else fmt_d q) q).
  { destruct (off <? 0) eqn:E; [|apply fmt_d_integer]. destruct (Z.eq_dec q 0) as [->|Hne].
    - exists (bs "+"), (bs "0"), 0. split; [reflexivity|]. split; [discriminate|].
      split; [apply digits_iff; split; reflexivity|]. right. left. auto.
    - assert (Hn : q <? 0 = true) by lia. unfold fmt_plus_d. rewrite Hn. pose proof (fmt_d_integer q) as H.
      unfold fmt_d in H. rewrite Hn in H. exact H. }
  assert (Hm : exists m, minutes_text m (if 0 <? f then "."%char :: fmt_02d f else if f <? 0 then "."%char :: fmt_02d (- f) else [])).
  { destruct (0 <? f) eqn:E1; [|destruct (f <? 0) eqn:E2].
    - exists (f * 60 / 100). right. exists f, (fmt_02d f). split; [apply fmt_02d_num; lia|auto].
    - exists (- f * 60 / 100). right. exists (- f), (fmt_02d (- f)). split; [apply fmt_02d_num; lia|auto].
    - exists 0. left. auto. }
  destruct Hm as [m Hm]. exists q, m. eexists. eexists. split; [exact Hint|]. split; [exact Hq|]. split; [exact Hm|]. reflexivity.
Qed.

Lemma integer_plain sh h : integer sh h -> ~ In ":"%char sh /\ sh <> [].
Proof.
  intros (sg & ds & v & -> & Hne & Hd & Hs). apply digits_iff in Hd as [Hd _]. split.
  - rewrite in_app_iff. intros [Hin|Hin].
    + destruct Hs as [[-> _]|[[-> _]|[-> _]]]; cbn in Hin; intuition discriminate.
    + rewrite forallb_forall in Hd. discriminate (Hd _ Hin).
  - destruct sg; [exact Hne|discriminate].
Qed.

Lemma minutes_plain m s : minutes_text m s -> ~ In ":"%char s.
Proof.
  intros [[_ ->]|(f & sf & Hn & _ & ->)]; [intros []|]. intros [Hin|Hin]; [discriminate|].
  apply num_digits in Hn. rewrite forallb_forall in Hn. discriminate (Hn _ Hin).
Qed.

Lemma named_char_plain c : zone_name_char c -> c <> "["%char /\ c <> "]"%char /\ plain c = true.
Proof.
  intros H. unfold zone_name_char in H. unfold plain.
  assert (E1 : code "["%char = 91%N) by reflexivity. assert (E2 : code "]"%char = 93%N) by reflexivity.
  split; [intros ->; lia|]. split; [intros ->; lia|]. apply andb_true_iff. split; lia.
Qed.

Lemma clean_text z : Forall (fun c => c <> "["%char /\ c <> "]"%char /\ plain c = true) z ->
  ~ In "["%char z /\ ~ In "]"%char z /\ forallb plain z = true.
Proof.
  intros H. rewrite Forall_forall in H. split; [intros Hin; exact (proj1 (H _ Hin) eq_refl)|].
  split; [intros Hin; exact (proj1 (proj2 (H _ Hin)) eq_refl)|]. apply forallb_forall. intros c Hc. apply (H c Hc).
Qed.

Lemma zone_chars_clean z : forallb zone_char z = true -> Forall (fun c => c <> "["%char /\ c <> "]"%char /\ plain c = true) z.
Proof. intros H. apply Forall_forall. intros c Hc. rewrite forallb_forall in H. apply zone_char_not, H, Hc. Qed.

Lemma unmarshal_bracket e t z : forallb zone_char t = true -> Forall (fun c => c <> "["%char /\ c <> "]"%char /\ plain c = true) z ->
  date_unmarshal e (t ++ "["%char :: z ++ ["]"%char]) =
  match date_zone z with
  | None => None
  | Some (zone, zfmt) => try_formats (env_local e) date_formats zfmt (t ++ zone)
  end.
Proof.
  intros Ht Hz. unfold date_unmarshal. change (bs "]") with ["]"%char]. change (bs "[") with ["["%char].
  destruct (clean_text t (zone_chars_clean t Ht)) as (T1 & T2 & T3). destruct (clean_text z Hz) as (Z1 & Z2 & Z3).
  replace (t ++ "["%char :: z ++ ["]"%char]) with ((t ++ "["%char :: z) ++ "]"%char :: []) by (rewrite <- !app_assoc; reflexivity).
  rewrite split2_char.
  2:{ rewrite in_app_iff. cbn [In]. intros [H|[H|H]]; [contradiction|discriminate|contradiction]. }
  assert (Htr : trim_space (t ++ "["%char :: z) = t ++ "["%char :: z).
  { apply trim_space_id, trimmed_all_plain. rewrite forallb_app. cbn [forallb]. rewrite T3, Z3. reflexivity. }
  cbv zeta. rewrite Htr, split2_char by exact T1. reflexivity.
Qed.

Lemma date_clock c t : date_text c t -> civil_ok c -> exists c' ns, clock_text c' ns t /\ civil_ok c'.
Proof.
  intros [y mo d sy smo sd H1 H2 H3|y mo d h sy smo sd sh H1 H2 H3 H4|y mo d h mi sy smo sd sh smi H1 H2 H3 H4 H5
    |y mo d h mi s sy smo sd sh smi ss H1 H2 H3 H4 H5 H6|y mo d h mi s ms sy smo sd sh smi ss sms H1 H2 H3 H4 H5 H6 H7] Hc.
  - eexists. eexists. split; [apply clock_day; eassumption|exact Hc].
  - eexists. eexists. split; [apply clock_hour; eauto|exact Hc].
  - eexists. eexists. split; [apply clock_minute; eassumption|exact Hc].
  - exists (mkCivil y mo d h mi s 0), 0. split; [|exact Hc].
    pose proof (clock_second y mo d h mi s 0 sy smo sd sh smi ss [] H1 H2 H3 H4 H5 H6 fraction_none) as H. rewrite app_nil_r in H. exact H.
  - exists (mkCivil y mo d h mi s 0). eexists. split.
    + apply clock_second; try eassumption. destruct H7 as [Hl Hd].
      pose proof (fraction_digits "."%char sms [] ms 0) as H. rewrite app_nil_r in H.
      apply H; [left; reflexivity|exact Hd|apply digits_iff; split; reflexivity|intros ->; discriminate|lia|left; reflexivity].
    + unfold civil_ok in *. cbn [cy cmo cd ch cmi cs cms] in *. intuition lia.
Qed.

Lemma name_part n n' a b sn : ~ In ":"%char a -> ~ In ":"%char b -> name_text n' sn -> a ++ name_suffix n = b ++ sn -> n' = n.
Proof.
  intros Ha Hb [[-> ->]|(Hne & _ & ->)] E.
  - destruct n as [|x n]; [reflexivity|]. cbn [name_suffix] in E. rewrite app_nil_r in E. exfalso. apply Hb. rewrite <- E, in_app_iff. right. left. reflexivity.
  - destruct n as [|x n].
    + cbn [name_suffix] in E. rewrite app_nil_r in E. exfalso. apply Ha. rewrite E, in_app_iff. right. left. reflexivity.
    + cbn [name_suffix] in E. destruct (spaceless_prefix ":" _ _ _ _ Ha Hb E) as [_ <-]. reflexivity.
Qed.

Lemma plain_minutes m s : minutes_text m s -> forallb zone_char s = true.
Proof.
  intros [[_ ->]|(f & sf & Hn & _ & ->)]; [reflexivity|]. cbn [forallb]. rewrite (digits_zone_chars sf (num_digits _ _ _ Hn)). reflexivity.
Qed.

Theorem reread_exact e c off n : civil_ok c -> -90000 < off < 90000 -> Forall zone_name_char n ->
  (exists t, date_unmarshal e (date_string (mkTime (instant c off) off n)) = Some t) <-> n = [] \/ abbreviation 0 n.
Proof.
  intros Hc Hb Hn. rewrite date_string_shape. cbn [t_off t_zone]. fold (printed off n).
  pose proof (format_ms_text c off n Hc) as Hf. pose proof (date_text_chars c _ Hf) as Hfc.
  set (fm := format_ms _) in *. clearbody fm.
  destruct (printed_parts off n Hb) as (h & m & sh & sm & Hi & Hh & Hm & ->).
  assert (Hz : Forall (fun c => c <> "["%char /\ c <> "]"%char /\ plain c = true) (sh ++ sm ++ name_suffix n)).
  { apply Forall_app. split; [apply zone_chars_clean, (integer_zone_chars sh h Hi)|]. apply Forall_app.
    split; [apply zone_chars_clean, (plain_minutes m sm Hm)|]. destruct n as [|x n]; [constructor|]. cbn [name_suffix].
    constructor; [split; [discriminate|split; [discriminate|reflexivity]]|]. revert Hn. apply Forall_impl. intros d. apply named_char_plain. }
  rewrite (unmarshal_bracket e fm _ Hfc Hz). destruct (clean_text _ Hz) as (_ & Hno & _).
  split.
  - intros [t Ht].
    destruct (date_zone (sh ++ sm ++ name_suffix n)) as [[zone zfmt]|] eqn:Ez; [|discriminate].
    destruct (proj1 (zone_date (env_local e) fm _ t Hno) (ex_intro _ (zone, zfmt) (conj Ez Ht))) as (c' & ns & t' & b & _ & _ & _ & _ & Hv).
    assert (G : forall h' m' n', zone_notation h' m' n' (sh ++ sm ++ name_suffix n) -> n' = n).
    { intros h' m' n' (sh' & sm' & sn' & Hi' & _ & Hm' & Hn' & E). rewrite !app_assoc in E.
      eapply name_part; [| |exact Hn'|exact E]; rewrite in_app_iff.
      - intros [X|X]; [exact (proj1 (integer_plain sh h Hi) X)|exact (minutes_plain m sm Hm X)].
      - intros [X|X]; [exact (proj1 (integer_plain sh' h' Hi') X)|exact (minutes_plain m' sm' Hm' X)]. }
    inversion Hv as [h' m' n' s' Hzn Hne Hu Ha Es Et|h' m' s' Hzn Es Et|s' Hzn Es Et|h' m' s' ln lo Hzn Hnz Hl Es Et]; apply G in Hzn; subst.
    + right. exact Ha.
    + right. exact abbr_utc.
    + left. reflexivity.
    + left. reflexivity.
  - intros H. destruct (date_clock c fm Hf Hc) as (c' & ns & Hcl & Hc').
    assert (Hzn : forall n0, n0 = n -> (n0 = [] \/ upper_letters n0) -> zone_notation h m n0 (sh ++ sm ++ name_suffix n)).
    { intros n0 -> Hu. exists sh, sm, (name_suffix n). split; [exact Hi|]. split; [exact Hh|]. split; [exact Hm|]. split; [|reflexivity].
      destruct Hu as [-> |Hu]; [left; split; reflexivity|]. destruct n as [|x n]; [left; split; reflexivity|].
      right. split; [discriminate|]. split; [exact Hu|reflexivity]. }
    assert (Hv : exists t, zone_value (env_local e) (fun off => instant c' off + ns) (sh ++ sm ++ name_suffix n) t).
    { destruct H as [-> |Ha].
      - specialize (Hzn [] eq_refl (or_introl eq_refl)). destruct (Z.eq_dec h 0) as [-> |Hh0]; [destruct (Z.eq_dec m 0) as [-> |Hm0]|].
        + eexists. apply zone_gmt. exact Hzn.
        + destruct (env_local e ((instant c' (zone_offset 0 m) + ns) / 1000000000)) as [ln lo] eqn:El.
          eexists. eapply zone_unnamed; [exact Hzn|intros [_ X]; contradiction|exact El].
        + destruct (env_local e ((instant c' (zone_offset h m) + ns) / 1000000000)) as [ln lo] eqn:El.
          eexists. eapply zone_unnamed; [exact Hzn|intros [X _]; contradiction|exact El].
      - specialize (Hzn n eq_refl (or_intror (proj1 Ha))). destruct (str_eqb n (bs "UTC")) eqn:E.
        + apply str_eqb_eq in E. subst n. eexists. eapply zone_utc. exact Hzn.
        + assert (Hne : n <> bs "UTC") by (intros ->; discriminate).
          eexists. eapply zone_named; [exact Hzn| |exact Hne|exact Ha].
          intros ->. destruct (abbr_head 0 [] Ha) as (a & r & X & _). discriminate X. }
    destruct Hv as [t Hv].
    destruct (proj2 (zone_date (env_local e) fm _ t Hno)) as [[zone zfmt] [Ez Ht]].
    { exists c', ns, fm, []. rewrite app_nil_r. auto 10. }
    rewrite Ez. exists t. exact Ht.
Qed.

Corollary reread_written e c ns off n : civil_ok c -> cms c = 0 -> 0 <= ns < 1000000000 -> -90000 < off < 90000 -> Forall zone_name_char n ->
  (exists t, date_unmarshal e (date_string (mkTime (instant c off + ns) off n)) = Some t) <-> n = [] \/ abbreviation 0 n.
Proof.
  intros Hc Hms Hns Hb Hn. rewrite (date_string_ms c ns off n Hns Hms). apply reread_exact; [|exact Hb|exact Hn].
  exact (with_ms_ok c ns Hns Hc).
Qed.

Lemma read_name e s t : date_unmarshal e s = Some t ->
  t_zone t = [] \/ abbreviation 0 (t_zone t) \/ env_local e (t_ns t / 1000000000) = (t_zone t, t_off t).
Proof.
  intros H. apply date_exact in H as (u & v & _ & _ & H). destruct H as [c ns x Hcl Hc|c ns x sp z t Hcl Hc Hsp Hv].
  - right. left. exact abbreviation_gmt.
  - inversion Hv as [h m n z' Hzn Hne Hu Ha Es Et|h m z' Hzn Es Et|z' Hzn Es Et|h m z' ln lo Hzn Hnz Hl Es Et]; subst z'; cbn [t_zone t_off t_ns].
    + right. left. exact Ha.
    + right. left. exact abbr_utc.
    + right. left. exact abbreviation_gmt.
    + destruct (lo =? zone_offset h m) eqn:E; [|left; reflexivity]. right. right. rewrite Hl. f_equal. lia.
Qed.

Theorem read_written e e' s t : date_unmarshal e s = Some t ->
  (forall i, fst (env_local e i) = [] \/ abbreviation 0 (fst (env_local e i))) ->
  exists t', date_unmarshal e' (date_string t) = Some t'.
Proof.
  intros H He. assert (Hn : t_zone t = [] \/ abbreviation 0 (t_zone t)).
  { destruct (read_name e s t H) as [E|[E|E]]; [auto|auto|]. specialize (He (t_ns t / 1000000000)). rewrite E in He. exact He. }
  destruct (date_form e s t H) as (c & ns & Hc & Hms & Hns & Et & _ & Hb).
  destruct t as [i off n]. cbn [t_zone t_off t_ns] in *. subst i.
  apply (reread_written e' c ns off n Hc Hms Hns Hb); [|exact Hn].
  destruct Hn as [-> |[Hu _]]; [constructor|]. revert Hu. apply Forall_impl. intros a Ha. left. exact Ha.
Qed.
