(** Facts about Headers.v. *)
From Coq Require Import Lia Bool ZifyBool ZifyNat ZifyN List.
From Verif Require Import GoStr SpecStr GoStrFacts DateFacts Enums EnumTables EnumFacts Codec Xml XmlFacts Headers SpecHeader LexFacts.

(** ** Versions *)

Lemma version_from_string s v :
  enum_from_string enum_ofxVersion s = (v, true) <->
  exists t, trims_to s t /\ In (t, v) (sgml_versions ++ xml_versions).
Proof.
  assert (Hin : In enum_ofxVersion all_enums) by (left; reflexivity).
  assert (Hu : enum_from_string enum_ofxVersion s = (v, true) <-> enum_unmarshal enum_ofxVersion s = Some v).
  { unfold enum_unmarshal. destruct (enum_from_string enum_ofxVersion s) as [e [|]]; split; congruence. }
  rewrite Hu, (enum_unmarshal_iff _ Hin). split; intros (n & Ht & H); exists n; (split; [exact Ht|]).
  - destruct H as [Hv H]. assert (Hk : exists k, v = N.of_nat (S k)) by (exists (N.to_nat v - 1); lia).
    destruct Hk as [k ->]. replace (N.to_nat (N.of_nat (S k)) - 1) with k in H by lia.
    do 11 (destruct k as [|k]; [injection H as <-; cbv; tauto|]).
    exfalso. assert (k + 11 < length (en_names enum_ofxVersion)).
    { apply nth_error_Some. replace (k + 11) with (S (S (S (S (S (S (S (S (S (S (S k))))))))))) by lia. congruence. }
    cbn in H0. lia.
  - cbn [sgml_versions xml_versions app In] in H.
    decompose [or] H; try contradiction;
      match goal with H : (_, _) = (n, v) |- _ => injection H as <- <- end;
      (split; [vm_compute; discriminate | reflexivity]).
Qed.

Lemma sgml_versions_small t v : In (t, v) sgml_versions -> (v <= OfxVersion160)%N.
Proof. cbn [sgml_versions In]. intros H. decompose [or] H; try contradiction; match goal with H : _ = _ |- _ => injection H as <- <- end; vm_compute; discriminate. Qed.

Lemma xml_versions_large t v : In (t, v) xml_versions -> (OfxVersion200 <= v)%N.
Proof. cbn [xml_versions In]. intros H. decompose [or] H; try contradiction; match goal with H : _ = _ |- _ => injection H as <- <- end; vm_compute; discriminate. Qed.

Lemma version_value_iff s v : version_value s v <->
  enum_from_string enum_ofxVersion s = (v, true) /\ (OfxVersion200 <= v)%N.
Proof.
  rewrite version_from_string. unfold version_value. split.
  - intros (t & Ht & H). split; [|eapply xml_versions_large; eauto]. exists t. split; auto. apply in_or_app. auto.
  - intros [(t & Ht & H) Hv]. exists t. split; auto. apply in_app_or in H as [H|H]; auto.
    apply sgml_versions_small in H. unfold OfxVersion200, OfxVersion160 in *. lia.
Qed.

(** ** SGML headers: reading *)

Lemma re_space_spec c : re_space c = true <-> header_space c.
Proof.
  unfold re_space, header_space. cbn [In]. remember (code c) as n. lia.
Qed.

Definition class_ok (a : str * (ascii -> bool)) (b : str * (ascii -> Prop)) : Prop :=
  fst a = fst b ++ bs ":" /\ ~ In ":"%char (fst b) /\
  (forall c, snd a c = true <-> snd b c) /\
  (forall c, snd b c -> ~ header_space c /\ c <> ":"%char) /\
  (exists x r, fst b = x :: r /\ ~ header_space x) /\
  (forall c, In c (fst b) -> ~ header_space c).

Lemma re_word_spec c : re_word c = true <-> word_char c.
Proof. unfold re_word, word_char, digit_char, upper_char, is_digit, is_upper, is_lower. lia. Qed.

Lemma dash_spec c : re_dash c = true <-> dash c.
Proof.
  unfold re_dash, dash. rewrite Ascii.eqb_eq. split; [intros ->; reflexivity|]. intros H. apply code_inj. exact H.
Qed.

Lemma class_not_space c : word_char c \/ dash c -> ~ header_space c /\ c <> ":"%char.
Proof.
  intros H. assert (E : code ":"%char = 58%N) by reflexivity.
  assert (Hc : code c <> 58%N /\ ~ header_space c).
  { unfold word_char, dash, digit_char, upper_char in H. unfold header_space. cbn [In]. remember (code c) as n. lia. }
  split; [tauto|]. intros ->. tauto.
Qed.

Lemma entries_ok : Forall2 class_ok sgml_entries sgml_keys.
Proof.
  assert (W : forall c, digit_char c \/ upper_char c -> word_char c) by (unfold word_char; tauto).
  assert (U : forall c, is_upper c = true <-> upper_char c) by (intros c; unfold is_upper, upper_char; lia).
  assert (D : forall c, is_digit c = true <-> digit_char c) by (intros c; unfold is_digit, digit_char; lia).
  unfold sgml_entries, sgml_keys. repeat (apply Forall2_cons; [unfold class_ok; cbn [fst snd]|]); [..|constructor];
    (split; [reflexivity|]; split; [intros Hin; cbn in Hin; decompose [or] Hin; try discriminate; contradiction|];
     split; [intros c; rewrite ?orb_true_iff, ?U, ?D, ?re_word_spec, ?dash_spec; tauto|];
     split; [intros c Hc; apply class_not_space; specialize (W c); tauto|];
     split; [eexists; eexists; split; [reflexivity|]; intros Hs; cbn in Hs; decompose [or] Hs; try discriminate; contradiction|];
     intros c Hc Hs; cbn in Hc; decompose [or] Hc; try contradiction; subst c;
     cbn in Hs; decompose [or] Hs; try discriminate; contradiction).
Qed.

Lemma span_split p s : s = fst (span p s) ++ snd (span p s) /\ Forall (fun c => p c = true) (fst (span p s)) /\
  (forall c r, snd (span p s) = c :: r -> p c = false).
Proof.
  induction s as [|c s (IH1 & IH2 & IH3)]; cbn [span]; [cbn; auto|].
  - split; [reflexivity|]. split; [constructor|discriminate].
  - destruct (p c) eqn:E.
    + destruct (span p s) as [a b]. cbn [fst snd] in *. split; [cbn [app]; f_equal; exact IH1|]. split; auto.
    + cbn [fst snd]. split; [reflexivity|]. split; [constructor|]. intros c' r [= <- _]. exact E.
Qed.

Lemma after_app p r : after p (p ++ r) = Some r.
Proof. unfold after. rewrite has_prefix_app. f_equal. rewrite skipn_app, skipn_all, Nat.sub_diag. reflexivity. Qed.

Lemma after_some p s r : after p s = Some r -> s = p ++ r.
Proof.
  unfold after. destruct (has_prefix p s) eqn:E; [|discriminate]. apply has_prefix_spec in E as [q ->].
  rewrite skipn_app, skipn_all, Nat.sub_diag. cbn [skipn app]. intros [= <-]. reflexivity.
Qed.

Lemma try_lengths_some k s next r : try_lengths k s next = Some r ->
  exists j r', 1 <= j <= k /\ r = firstn j s :: r' /\ next (skipn j s) = Some r'.
Proof.
  induction k as [|k IH]; [discriminate|]. cbn [try_lengths].
  destruct (next (skipn (S k) s)) as [x|] eqn:E.
  - intros [= <-]. exists (S k), x. split; [lia|]. auto.
  - intros H. destruct (IH H) as (j & r' & Hj & H1 & H2). exists j, r'. split; [lia|]. auto.
Qed.

Lemma try_lengths_ex k s next j x : 1 <= j <= k -> next (skipn j s) = Some x ->
  exists r, try_lengths k s next = Some r.
Proof.
  intros Hj Hx. induction k as [|k IH]; [lia|]. cbn [try_lengths].
  destruct (next (skipn (S k) s)) eqn:E; [eauto|].
  destruct (Nat.eq_dec j (S k)) as [->|]; [congruence|]. apply IH. lia.
Qed.

Lemma Forall_space w : Forall (fun c => re_space c = true) w <-> Forall header_space w.
Proof. split; intros H; (eapply Forall_impl; [|exact H]); intros c; apply re_space_spec. Qed.

Lemma Forall_firstn {A} (P : A -> Prop) n l : Forall P l -> Forall P (firstn n l).
Proof. revert l. induction n; intros l H; [constructor|]. destruct l; [constructor|]. cbn [firstn]. constructor; [exact (Forall_inv H)|]. apply IHn. exact (Forall_inv_tail H). Qed.

Lemma match_entries_sound es ks : Forall2 class_ok es ks -> forall s values,
  match_entries es s = Some values -> exists t, s = t ++ bs "<" /\ header_text ks values t.
Proof.
  induction 1 as [|[key p] [k cl] es ks Hc H IH]; intros s values E; cbn [match_entries] in E.
  - destruct (str_eqb s (bs "<")) eqn:Es; [|discriminate]. injection E as <-. apply str_eqb_eq in Es. subst s.
    exists []. split; [reflexivity | constructor].
  - destruct Hc as (H1 & H2 & H3 & H4 & H5 & _). cbn [fst snd] in *. subst key.
    destruct (after (k ++ bs ":") s) as [s1|] eqn:Ea; [|discriminate]. cbn [bind] in E.
    apply after_some in Ea. subst s. unfold skip_re_space in E at 1.
    destruct (span_split re_space s1) as (Es1 & Hw & _). set (w := fst (span re_space s1)) in *.
    set (s2 := snd (span re_space s1)) in *.
    apply try_lengths_some in E as (j & r' & Hj & -> & E). unfold skip_re_space in E.
    destruct (span_split p s2) as (Es2 & Hv & _). set (v := fst (span p s2)) in *.
    set (r0 := skipn j s2) in *. destruct (span_split re_space r0) as (Er0 & Hw' & _).
    apply IH in E as (t & Et & Ht).
    exists (k ++ bs ":" ++ w ++ firstn j s2 ++ fst (span re_space r0) ++ t). split.
    + rewrite <- !app_assoc. f_equal. f_equal. transitivity (w ++ s2); [exact Es1|]. f_equal.
      transitivity (firstn j s2 ++ r0); [symmetry; apply firstn_skipn|]. f_equal.
      rewrite <- Et. exact Er0.
    + constructor.
      * apply Forall_space. exact Hw.
      * intros E0. apply (f_equal (@length ascii)) in E0. rewrite firstn_length in E0. cbn [length] in E0.
        assert (length v <= length s2) by (rewrite Es2 at 1; rewrite app_length; lia). lia.
      * assert (Hvv : Forall cl v) by (eapply Forall_impl; [|exact Hv]; intros c; apply H3).
        replace (firstn j s2) with (firstn j v); [apply Forall_firstn; exact Hvv|].
        rewrite Es2 at 1. rewrite firstn_app. replace (j - length v) with 0 by lia. cbn [firstn]. symmetry; apply app_nil_r.
      * apply Forall_space. exact Hw'.
      * exact Ht.
Qed.

Lemma span_exact p a r : Forall (fun c => p c = true) a -> (forall c r', r = c :: r' -> p c = false) ->
  span p (a ++ r) = (a, r).
Proof.
  intros Ha Hr. induction Ha as [|c a Hc Ha IH]; cbn [app].
  - destruct r as [|c r]; [reflexivity|]. cbn [span]. rewrite (Hr c r eq_refl). reflexivity.
  - cbn [span]. rewrite Hc, IH. reflexivity.
Qed.

Lemma span_at_least p a r : Forall (fun c => p c = true) a -> length a <= length (fst (span p (a ++ r))).
Proof.
  induction 1 as [|c a Hc Ha IH]; [cbn; lia|]. cbn [app span]. rewrite Hc.
  destruct (span p (a ++ r)). cbn [fst length] in *. lia.
Qed.

Lemma header_text_starts es ks values t : Forall2 class_ok es ks -> header_text ks values t ->
  forall c r, t ++ bs "<" = c :: r -> re_space c = false.
Proof.
  intros Hc Ht c r E. destruct (re_space c) eqn:Es; auto. exfalso. apply re_space_spec in Es.
  inversion Ht as [|key class keys w value w' values' rest]; subst.
  - injection E as <- _. cbn in Es. decompose [or] Es; try discriminate; contradiction.
  - inversion Hc as [|a b es' ks' Hab]; subst. destruct Hab as (_ & _ & _ & _ & (x & k & Hk & Hx) & _).
    cbn [fst] in Hk. subst key. injection E as <- _. auto.
Qed.

Lemma match_entries_complete es ks : Forall2 class_ok es ks -> forall t values,
  header_text ks values t -> exists values', match_entries es (t ++ bs "<") = Some values'.
Proof.
  induction 1 as [|[key p] [k cl] es ks Hc H IH]; intros t values Ht; inversion Ht as [|key' class keys w value w' values' rest Hw Hne Hv Hw' Hr]; subst.
  - exists []. reflexivity.
  - destruct Hc as (H1 & H2 & H3 & H4 & H5 & _). cbn [fst snd] in *. subst key. cbn [match_entries].
    destruct (IH rest values' Hr) as [vs Evs].
    replace ((k ++ bs ":" ++ w ++ value ++ w' ++ rest) ++ bs "<")
      with ((k ++ bs ":") ++ w ++ value ++ w' ++ rest ++ bs "<") by (rewrite <- !app_assoc; reflexivity).
    rewrite after_app. cbn [bind]. cbv zeta.
    assert (E1 : skip_re_space (w ++ value ++ w' ++ rest ++ bs "<") = value ++ w' ++ rest ++ bs "<").
    { unfold skip_re_space. rewrite span_exact; [reflexivity| |].
      - apply Forall_space. exact Hw.
      - intros c r E. destruct value as [|x value]; [congruence|]. injection E as <- _.
        destruct (re_space x) eqn:Es; auto. apply re_space_spec in Es. destruct (H4 x (Forall_inv Hv)). tauto. }
    rewrite E1.
    eapply try_lengths_ex with (j := length value).
    + split; [destruct value; [congruence|cbn; lia]|]. apply span_at_least.
      eapply Forall_impl; [|exact Hv]. intros c. apply H3.
    + rewrite skipn_app, skipn_all, Nat.sub_diag. cbn [skipn app]. unfold skip_re_space.
      rewrite span_exact; [exact Evs| |].
      * apply Forall_space. exact Hw'.
      * eapply header_text_starts; eauto.
Qed.

Lemma first_colon (a b : str) r r' : ~ In ":"%char a -> ~ In ":"%char b ->
  a ++ ":"%char :: r = b ++ ":"%char :: r' -> a = b /\ r = r'.
Proof.
  revert b. induction a as [|x a IH]; intros b Ha Hb E.
  - destruct b as [|y b]; [injection E; auto|]. exfalso. apply Hb. left. injection E. auto.
  - destruct b as [|y b]; [exfalso; apply Ha; left; injection E; auto|].
    injection E as -> E. destruct (IH b) as [-> ->]; auto; intros Hin; [apply Ha | apply Hb]; right; auto.
Qed.

(** A value and the white space after it, split in one way only. *)
Lemma value_space_unique v w v' w' : Forall (fun c => ~ header_space c) v -> Forall (fun c => ~ header_space c) v' ->
  Forall header_space w -> Forall header_space w' -> v ++ w = v' ++ w' -> v = v' /\ w = w'.
Proof.
  revert v'. induction v as [|x v IH]; intros v' Hv Hv' Hw Hw' E.
  - destruct v' as [|y v']; [auto|]. destruct w as [|z w]; [discriminate|]. injection E as -> _.
    exfalso. exact (Forall_inv Hv' (Forall_inv Hw)).
  - destruct v' as [|y v'].
    + destruct w' as [|z w']; [discriminate|]. injection E as -> _. exfalso. exact (Forall_inv Hv (Forall_inv Hw')).
    + injection E as -> E. destruct (IH v' (Forall_inv_tail Hv) (Forall_inv_tail Hv') Hw Hw' E) as [-> ->]. auto.
Qed.

Lemma space_value_unique w v w' v' : Forall header_space w -> Forall header_space w' ->
  (forall c r, v = c :: r -> ~ header_space c) -> (forall c r, v' = c :: r -> ~ header_space c) ->
  w ++ v = w' ++ v' -> v = v'.
Proof.
  revert w'. induction w as [|x w IH]; intros w' Hw Hw' Hv Hv' E.
  - destruct w' as [|y w']; [exact E|]. cbn [app] in E. exfalso. exact (Hv _ _ E (Forall_inv Hw')).
  - destruct w' as [|y w'].
    + cbn [app] in E. exfalso. symmetry in E. exact (Hv' _ _ E (Forall_inv Hw)).
    + injection E as -> E. exact (IH w' (Forall_inv_tail Hw) (Forall_inv_tail Hw') Hv Hv' E).
Qed.

Lemma no_colon_space w : Forall header_space w -> ~ In ":"%char w.
Proof.
  intros H Hin. rewrite Forall_forall in H. specialize (H _ Hin). cbn in H. decompose [or] H; try discriminate; contradiction.
Qed.

Lemma header_text_unique es ks : Forall2 class_ok es ks -> forall s v v',
  header_text ks v s -> header_text ks v' s -> v = v'.
Proof.
  induction 1 as [|[key p] [k cl] es ks Hc H IH]; intros s vs vs' Ht Ht'.
  - inversion Ht; inversion Ht'; reflexivity.
  - inversion Ht as [|? ? ? w value w1 values rest Hw Hne Hv Hw1 Hr]; subst.
    inversion Ht' as [|? ? ? w' value' w1' values' rest' Hw' Hne' Hv' Hw1' Hr' E1 E2 E]; subst.
    destruct Hc as (H1 & H2 & H3 & H4 & _). cbn [fst snd] in *.
    apply app_inv_head in E. injection E as E.
    apply (space_value_unique w' _ w _ Hw' Hw) in E.
    2:{ intros c r Ec. destruct value' as [|x value']; [congruence|]. injection Ec as <- _. apply H4. exact (Forall_inv Hv'). }
    2:{ intros c r Ec. destruct value as [|x value]; [congruence|]. injection Ec as <- _. apply H4. exact (Forall_inv Hv). }
    assert (Hnv : Forall (fun c => ~ header_space c) value) by (eapply Forall_impl; [|exact Hv]; intros c Hcc; apply H4; exact Hcc).
    assert (Hnv' : Forall (fun c => ~ header_space c) value') by (eapply Forall_impl; [|exact Hv']; intros c Hcc; apply H4; exact Hcc).
    assert (Hcv : ~ In ":"%char value) by (intros Hin; rewrite Forall_forall in Hv; destruct (H4 _ (Hv _ Hin)); auto).
    assert (Hcv' : ~ In ":"%char value') by (intros Hin; rewrite Forall_forall in Hv'; destruct (H4 _ (Hv' _ Hin)); auto).
    assert (Hboth : value ++ w1 = value' ++ w1' /\ rest = rest').
    { destruct ks as [|[k2 cl2] ks].
      - inversion Hr; inversion Hr'; subst. rewrite !app_nil_r in E. auto.
      - inversion Hr as [|? ? ? w2 value2 w3 values2 rest2]; subst.
        inversion Hr' as [|? ? ? w2' value2' w3' values2' rest2']; subst.
        inversion H as [|a b es' ks' Hab]; subst. destruct Hab as (_ & Hk2 & _). cbn [fst] in Hk2.
        rewrite !(app_assoc value), !(app_assoc value') in E.
        change (bs ":") with [":"%char] in E. cbn [app] in E. 
        rewrite !(app_assoc (value ++ w1) k2), !(app_assoc (value' ++ w1') k2) in E.
        apply first_colon in E.
        + destruct E as [Ea Eb]. apply app_inv_tail in Ea. split; [auto|]. rewrite Eb. reflexivity.
        + rewrite !in_app_iff. pose proof (no_colon_space _ Hw1'). tauto.
        + rewrite !in_app_iff. pose proof (no_colon_space _ Hw1). tauto. }
    destruct Hboth as [Eb Erest]. apply value_space_unique in Eb as [-> _]; auto. f_equal.
    subst rest'. eapply IH; eauto.
Qed.

Lemma header_no_lt ks values t :
  header_text ks values t ->
  Forall (fun k => forall c, In c (fst k) \/ snd k c -> c <> "<"%char) ks -> ~ In "<"%char t.
Proof.
  induction 1 as [|key class keys w value w' values rest Hw Hne Hv Hw' Hr IH]; intros Hk.
  - intros [].
  - pose proof (Forall_inv Hk) as Hk1. cbn [fst snd] in Hk1.
    assert (Hs : forall w, Forall header_space w -> ~ In "<"%char w).
    { intros x Hx Hin. rewrite Forall_forall in Hx. specialize (Hx _ Hin). cbn in Hx. decompose [or] Hx; try discriminate; contradiction. }
    rewrite !in_app_iff. intros [Hin|[Hin|[Hin|[Hin|[Hin|Hin]]]]].
    + exact (Hk1 _ (or_introl Hin) eq_refl).
    + cbn in Hin. destruct Hin as [Hin|[]]. discriminate.
    + exact (Hs w Hw Hin).
    + rewrite Forall_forall in Hv. exact (Hk1 _ (or_intror (Hv _ Hin)) eq_refl).
    + exact (Hs w' Hw' Hin).
    + exact (IH (Forall_inv_tail Hk) Hin).
Qed.

Lemma sgml_keys_no_lt : Forall (fun k => forall c, In c (fst k) \/ snd k c -> c <> "<"%char) sgml_keys.
Proof.
  unfold sgml_keys. repeat constructor; cbn [fst snd]; intros c [Hc|Hc] ->;
    try (cbn in Hc; decompose [or] Hc; try discriminate; contradiction);
    unfold word_char, dash, digit_char, upper_char in Hc; change (code "<"%char) with 60%N in Hc; lia.
Qed.

Lemma trims_to_digits s : forallb is_digit s = true -> trims_to s s.
Proof.
  intros H. exists [], []. split; [constructor|]. split; [constructor|].
  split; [rewrite app_nil_r; reflexivity|]. apply trimmed_all_plain.
  apply forallb_forall. intros c Hc. rewrite forallb_forall in H. specialize (H c Hc). unfold is_digit in H.
  unfold plain. lia.
Qed.

Lemma check_sgml_iff values v : check_sgml values = Some v <->
  exists version security encoding charset old new t,
    values = [bs "100"; bs "OFXSGML"; version; security; encoding; charset; bs "NONE"; old; new] /\
    trims_to version t /\ In (t, v) sgml_versions /\ (security = bs "NONE" \/ security = bs "TYPE1").
Proof.
  split.
  - unfold check_sgml.
    do 9 (destruct values as [|? values]; [discriminate|]). destruct values; [|discriminate].
    destruct (str_eqb s (bs "100")) eqn:E1; [|discriminate]. apply str_eqb_eq in E1.
    destruct (str_eqb s0 (bs "OFXSGML")) eqn:E2; [|discriminate]. apply str_eqb_eq in E2. cbn [negb].
    destruct (enum_from_string enum_ofxVersion s1) as [w [|]] eqn:E3; [|discriminate].
    destruct (OfxVersion160 <? w)%N eqn:E4; [discriminate|].
    destruct (str_eqb s2 (bs "NONE") || str_eqb s2 (bs "TYPE1")) eqn:E5; [|discriminate].
    destruct (str_eqb s5 (bs "NONE")) eqn:E6; [|discriminate]. apply str_eqb_eq in E6. cbn [negb].
    intros [= <-]. apply version_from_string in E3 as (t & Ht & Hin). subst.
    exists s1, s2, s3, s4, s6, s7, t. split; [reflexivity|]. split; [exact Ht|]. split.
    + apply in_app_or in Hin as [Hin|Hin]; [exact Hin|]. apply xml_versions_large in Hin.
      unfold OfxVersion160, OfxVersion200 in *. lia.
    + apply orb_true_iff in E5 as [E5|E5]; apply str_eqb_eq in E5; auto.
  - intros (version & security & encoding & charset & old & new & t & -> & Ht & Hin & Hs). unfold check_sgml.
    rewrite !str_eqb_refl. cbn [negb].
    assert (E : enum_from_string enum_ofxVersion version = (v, true)).
    { apply version_from_string. exists t. split; auto. apply in_or_app. auto. }
    rewrite E. apply sgml_versions_small in Hin. destruct (N.ltb_spec OfxVersion160 v); [lia|].
    destruct Hs as [-> | ->]; reflexivity.
Qed.

Lemma header_version_digits values t : header_text sgml_keys values t ->
  forall a b version rest, values = a :: b :: version :: rest -> Forall digit_char version.
Proof.
  intros H a b version rest ->. unfold sgml_keys in H.
  inversion H as [|? ? ? ? ? ? ? ? _ _ _ _ H1]; subst. clear H.
  inversion H1 as [|? ? ? ? ? ? ? ? _ _ _ _ H2]; subst. clear H1.
  inversion H2 as [|? ? ? ? ? ? ? ? _ _ Hv _ H3]; subst. exact Hv.
Qed.

Lemma digit_chars s : Forall digit_char s -> forallb is_digit s = true.
Proof. intros H. apply forallb_forall. intros c Hc. rewrite Forall_forall in H. specialize (H c Hc). unfold digit_char in H. unfold is_digit. lia. Qed.

Lemma trims_to_unique s t t' : trims_to s t -> trims_to s t' -> t = t'.
Proof. intros H1 H2. apply trim_space_complete in H1. apply trim_space_complete in H2. congruence. Qed.

(** Reading an SGML header. *)
Theorem read_sgml_iff s v rest :
  read_sgml_headers s = Some (v, rest) <->
  exists h, s = h ++ rest /\ sgml_header_for v h /\ (exists b, rest = "<"%char :: b) /\ length h < window.
Proof.
  unfold read_sgml_headers. split.
  - intros H. destruct (index_of (bs "<") s) as [i|] eqn:Ei; [|discriminate]. cbn [bind] in H.
    destruct (Nat.leb_spec window i) as [|Hi]; [discriminate|].
    destruct (index_of_some _ _ _ Ei) as (b & Es & Hl).
    pose proof (index_of_first _ _ _ Ei) as Hf.
    set (h := firstn i s) in *. assert (Hh : length h = i) by (unfold h; rewrite firstn_length; lia).
    assert (Ef : firstn (S i) s = h ++ bs "<").
    { rewrite Es, <- Hh. rewrite app_assoc. replace (S (length h)) with (length (h ++ bs "<") + 0).
      - rewrite firstn_app_2. cbn [firstn]. apply app_nil_r.
      - rewrite app_length. cbn. lia. }
    assert (Ek : skipn i s = bs "<" ++ b).
    { rewrite Es, <- Hh. rewrite skipn_app, skipn_all, Nat.sub_diag. reflexivity. }
    rewrite Ef in H. destruct (match_entries sgml_entries (h ++ bs "<")) as [values|] eqn:Em; [|discriminate].
    cbn [bind] in H. destruct (check_sgml values) as [w|] eqn:Ec; [|discriminate]. cbn [bind] in H.
    injection H as <- <-. exists h. split.
    + rewrite Ek. exact Es.
    + split; [|split; [exists b; exact Ek | lia]].
      apply (match_entries_sound _ _ entries_ok) in Em as (t & Et & Ht). apply app_inv_tail in Et. subst t.
      apply check_sgml_iff in Ec as (version & security & encoding & charset & old & new & t & -> & Htr & Hin & Hs).
      exists version, security, encoding, charset, old, new. split; [exact Ht|]. split; [|exact Hs].
      pose proof (header_version_digits _ _ Ht _ _ _ _ eq_refl) as Hd.
      rewrite (trims_to_unique version version t); auto. apply trims_to_digits, digit_chars, Hd.
  - intros (h & -> & (version & security & encoding & charset & old & new & Ht & Hin & Hs) & (b & ->) & Hl).
    pose proof (header_no_lt _ _ _ Ht sgml_keys_no_lt) as Hno.
    change (bs "<") with ["<"%char]. rewrite (index_of_app_none _ _ _ Hno). cbn [bind].
    destruct (Nat.leb_spec window (length h)); [lia|].
    replace (firstn (S (length h)) (h ++ "<"%char :: b)) with (h ++ bs "<").
    2:{ change (h ++ "<"%char :: b) with (h ++ bs "<" ++ b). rewrite app_assoc.
        replace (S (length h)) with (length (h ++ bs "<") + 0) by (rewrite app_length; cbn; lia).
        rewrite firstn_app_2. cbn [firstn]. symmetry. apply app_nil_r. }
    destruct (match_entries_complete _ _ entries_ok _ _ Ht) as [values' Em]. rewrite Em. cbn [bind].
    destruct (match_entries_sound _ _ entries_ok _ _ Em) as (t & Et & Ht'). apply app_inv_tail in Et. subst t.
    pose proof (header_text_unique _ _ entries_ok _ _ _ Ht Ht') as <-.
    assert (Ec : check_sgml [bs "100"; bs "OFXSGML"; version; security; encoding; charset; bs "NONE"; old; new] = Some v).
    { apply check_sgml_iff. exists version, security, encoding, charset, old, new, version. split; [reflexivity|].
      split; auto. apply trims_to_digits, digit_chars. eapply header_version_digits; [exact Ht|reflexivity]. }
    rewrite Ec. cbn [bind]. rewrite skipn_app, skipn_all, Nat.sub_diag. reflexivity.
Qed.

(** ** XML headers: reading *)

Lemma index_of_head (c : ascii) p a r : ~ In c a -> index_of (c :: p) (a ++ (c :: p) ++ r) = Some (length a).
Proof.
  induction a as [|x a IH]; intros H.
  - cbn [app length]. pose proof (has_prefix_app (c :: p) r) as E. cbn [app] in E. cbn [index_of]. rewrite E. reflexivity.
  - cbn [app length index_of has_prefix].
    destruct (Ascii.eqb_spec c x) as [->|Hne]; [exfalso; apply H; left; reflexivity|]. cbn [andb].
    cbn [app] in IH. rewrite IH; [reflexivity|]. intros Hin. apply H. right. exact Hin.
Qed.

Lemma skipn_app_exact (p r : str) : skipn (length p) (p ++ r) = r.
Proof. rewrite skipn_app, skipn_all, Nat.sub_diag. reflexivity. Qed.

Lemma split2_head (c : ascii) p a r : ~ In c a -> split2 (c :: p) (a ++ (c :: p) ++ r) = Some (a, r).
Proof.
  intros H. unfold split2. rewrite index_of_head by exact H. f_equal. f_equal.
  - rewrite firstn_app, Nat.sub_diag, firstn_all. cbn [firstn]. apply app_nil_r.
  - rewrite skipn_app. rewrite skipn_all2 by lia. cbn [app].
    replace (length a + length (c :: p) - length a) with (length (c :: p)) by lia.
    exact (skipn_app_exact (c :: p) r).
Qed.

Definition quote : ascii := chr 34.

Lemma attributes_pad l s : attributes_text l s -> forall w w', ws_run w -> ws_run w' ->
  attributes_text l (w ++ s ++ w').
Proof.
  induction 1 as [w0 H0|w0 name value l rest H0 Hl Hv Hr IH]; intros w w' Hw Hw'.
  - constructor. apply ws_run_app; [auto|]. apply ws_run_app; auto.
  - replace (w ++ (w0 ++ name ++ bs "=" ++ [chr 34] ++ value ++ [chr 34] ++ rest) ++ w')
      with ((w ++ w0) ++ name ++ bs "=" ++ [chr 34] ++ value ++ [chr 34] ++ ([] ++ rest ++ w'))
      by (rewrite <- !app_assoc; reflexivity).
    constructor; auto; [apply ws_run_app; auto | apply IH; auto; constructor].
Qed.

(** The attributes without the white space around them. *)
Inductive attributes_core : list (str * str) -> str -> Prop :=
| core_one name value : legal_attribute name value -> ~ In (chr 34) value ->
    attributes_core [(name, value)] (name ++ bs "=" ++ [chr 34] ++ value ++ [chr 34])
| core_more name value w l core : legal_attribute name value -> ~ In (chr 34) value -> ws_run w ->
    attributes_core l core ->
    attributes_core ((name, value) :: l) (name ++ bs "=" ++ [chr 34] ++ value ++ [chr 34] ++ w ++ core).

Lemma attributes_have_core l s : attributes_text l s ->
  (l = [] /\ ws_run s) \/
  exists w core w', ws_run w /\ ws_run w' /\ s = w ++ core ++ w' /\ attributes_core l core.
Proof.
  induction 1 as [w0 H0|w0 name value l rest H0 Hl Hv Hr IH]; [left; auto|]. right.
  destruct IH as [[-> Hw]|(w & core & w' & Hw & Hw' & -> & Hc)].
  - exists w0, (name ++ bs "=" ++ [chr 34] ++ value ++ [chr 34]), rest.
    split; [auto|]. split; [auto|]. split; [rewrite <- !app_assoc; reflexivity|]. constructor; auto.
  - exists w0, (name ++ bs "=" ++ [chr 34] ++ value ++ [chr 34] ++ w ++ core), w'.
    split; [auto|]. split; [auto|]. split; [rewrite <- !app_assoc; reflexivity|]. constructor; auto.
Qed.

Lemma legal_name name value : legal_attribute name value ->
  ~ In "="%char name /\ exists c r, name = c :: r /\ plain c = true.
Proof.
  intros H. assert (Hn : In name [bs "OFXHEADER"; bs "VERSION"; bs "SECURITY"; bs "OLDFILEUID"; bs "NEWFILEUID"]).
  { unfold legal_attribute in H. cbn [In]. intuition auto. }
  clear H. cbn [In] in Hn. split.
  - intros Hin. decompose [or] Hn; try contradiction; subst name; cbn in Hin; decompose [or] Hin; try discriminate; contradiction.
  - decompose [or] Hn; try contradiction; subst name; eexists; eexists; split; reflexivity.
Qed.

Lemma core_trimmed l core : attributes_core l core -> trimmed core /\ core <> [].
Proof.
  intros H.
  assert (Hlast : exists s, core = s ++ [chr 34]).
  { induction H as [name value|name value w l core Hl Hv Hw Hc [s ->]].
    - exists (name ++ bs "=" ++ [chr 34] ++ value). rewrite <- !app_assoc. reflexivity.
    - exists (name ++ bs "=" ++ [chr 34] ++ value ++ [chr 34] ++ w ++ s). rewrite <- !app_assoc. reflexivity. }
  assert (Hfirst : exists c r, core = c :: r /\ plain c = true).
  { destruct H as [name value Hl|name value w l core Hl];
      destruct (legal_name _ _ Hl) as (_ & c & r & -> & Hc); eexists; eexists; (split; [reflexivity|exact Hc]). }
  destruct Hfirst as (c & r & -> & Hc). destruct Hlast as [s Hs]. split; [|discriminate].
  apply (trimmed_plain c r (chr 34)); [exact Hc | reflexivity | exists s; exact Hs].
Qed.

(** What the loop makes of a list of attributes. *)
Definition last_version (before : option N) (l : list (str * str)) (v : N) : Prop :=
  (before = Some v /\ forall x, ~ In (bs "VERSION", x) l) \/
  (exists a value b, l = a ++ (bs "VERSION", value) :: b /\ version_value value v /\
     forall x, ~ In (bs "VERSION", x) b).

Definition loop_result (seen : bool) (before : option N) (l : list (str * str)) (v : N) : Prop :=
  (seen = true \/ In (bs "OFXHEADER", bs "200") l) /\ last_version before l v.

Lemma last_version_other before name value l v : name <> bs "VERSION" ->
  (last_version before ((name, value) :: l) v <-> last_version before l v).
Proof.
  intros Hn. unfold last_version. split.
  - intros [[H1 H2]|(a & x & b & E & Hx & Hb)].
    + left. split; auto. intros x Hin. apply (H2 x). right. exact Hin.
    + right. destruct a as [|p a]; [cbn [app] in E; congruence|]. cbn [app] in E. exists a, x, b. split; [congruence|auto].
  - intros [[H1 H2]|(a & x & b & E & Hx & Hb)].
    + left. split; auto. intros x [E|Hin]; [congruence | exact (H2 x Hin)].
    + right. exists ((name, value) :: a), x, b. subst l. auto.
Qed.

Lemma last_version_here before value l v w : version_value value w ->
  (last_version before ((bs "VERSION", value) :: l) v <-> last_version (Some w) l v).
Proof.
  intros Hw. unfold last_version. split.
  - intros [[H1 H2]|(a & x & b & E & Hx & Hb)].
    + exfalso. apply (H2 value). left. reflexivity.
    + destruct a as [|p a].
      * cbn [app] in E. assert (value = x) by congruence. assert (l = b) by congruence. subst x b.
        left. split; [|exact Hb]. f_equal.
        apply version_value_iff in Hw as [Hw _]. apply version_value_iff in Hx as [Hx _]. congruence.
      * cbn [app] in E. right. exists a, x, b. split; [congruence|auto].
  - intros [[H1 H2]|(a & x & b & E & Hx & Hb)].
    + injection H1 as ->. right. exists [], value, l. auto.
    + right. exists ((bs "VERSION", value) :: a), x, b. subst l. auto.
Qed.

(** One attribute in the loop. *)
Lemma loop_result_step seen before name value l v : legal_attribute name value ->
  forall seen' before',
  (name = bs "OFXHEADER" -> seen' = true /\ before' = before) ->
  (name = bs "VERSION" -> seen' = seen /\ exists w, before' = Some w /\ version_value value w) ->
  (name <> bs "OFXHEADER" -> name <> bs "VERSION" -> seen' = seen /\ before' = before) ->
  (loop_result seen before ((name, value) :: l) v <-> loop_result seen' before' l v).
Proof.
  intros Hl seen' before' H1 H2 H3. unfold loop_result.
  destruct Hl as [[-> ->]|[[-> (w & Hw)]|[[-> ->]|Hl]]].
  - destruct (H1 eq_refl) as [-> ->]. rewrite last_version_other by discriminate.
    split; intros [Ha Hb]; (split; [|exact Hb]); [left; reflexivity | right; left; reflexivity].
  - destruct (H2 eq_refl) as (-> & w' & -> & Hw'). rewrite (last_version_here before value l v w' Hw').
    split; intros [Ha Hb]; (split; [|exact Hb]).
    + destruct Ha as [Ha|[Ha|Ha]]; auto. discriminate.
    + destruct Ha as [Ha|Ha]; auto. right. right. exact Ha.
  - destruct H3 as [-> ->]; [discriminate | discriminate|]. rewrite last_version_other by discriminate.
    split; intros [Ha Hb]; (split; [|exact Hb]).
    + destruct Ha as [Ha|[Ha|Ha]]; auto. discriminate.
    + destruct Ha as [Ha|Ha]; auto. right. right. exact Ha.
  - destruct H3 as [-> ->]; [destruct Hl as [->| ->]; discriminate | destruct Hl as [->| ->]; discriminate |].
    rewrite last_version_other by (destruct Hl as [->| ->]; discriminate).
    split; intros [Ha Hb]; (split; [|exact Hb]).
    + destruct Ha as [Ha|[Ha|Ha]]; auto. destruct Hl as [->| ->]; discriminate.
    + destruct Ha as [Ha|Ha]; auto. right. right. exact Ha.
Qed.

Lemma xml_loop_sound fuel : forall h seen before v, xml_header_loop fuel h seen before = Some v ->
  exists l, attributes_text l h /\ loop_result seen before l v.
Proof.
  induction fuel as [|fuel IH]; intros h seen before v H; [discriminate|].
  destruct h as [|c h0].
  - cbn [xml_header_loop] in H. destruct seen; [|discriminate]. exists []. split; [constructor; constructor|].
    split; [auto|]. left. split; [exact H|]. intros x [].
  - set (h := c :: h0) in *. 
    assert (H' : (a <- split2 (bs "=" ++ [chr 34]) h ;;
          b <- split2 [chr 34] (snd a) ;;
          let header := fst a in
          let value := fst b in
          let rest := trim_space (snd b) in
          if str_eqb header (bs "OFXHEADER") then
            if str_eqb value (bs "200") then xml_header_loop fuel rest true before else None
          else if str_eqb header (bs "VERSION") then
            match enum_from_string enum_ofxVersion value with
            | (v, true) =>
                if (v <? OfxVersion200)%N then None else xml_header_loop fuel rest seen (Some v)
            | (_, false) => None
            end
          else if str_eqb header (bs "SECURITY") then
            if str_eqb value (bs "NONE") then xml_header_loop fuel rest seen before else None
          else if str_eqb header (bs "OLDFILEUID") || str_eqb header (bs "NEWFILEUID") then
            xml_header_loop fuel rest seen before
          else None) = Some v) by exact H.
    clear H. clearbody h. clear c h0.
    destruct (split2 (bs "=" ++ [chr 34]) h) as [[name s1]|] eqn:E1; [|discriminate]. cbn [bind snd fst] in H'.
    destruct (split2 [chr 34] s1) as [[value s2]|] eqn:E2; [|discriminate]. cbn [bind snd fst] in H'. cbv zeta in H'.
    apply split2_some in E1. apply split2_some_char in E2 as [-> Hq].
    assert (Hgen : forall seen' before', xml_header_loop fuel (trim_space s2) seen' before' = Some v ->
      legal_attribute name value ->
      (name = bs "OFXHEADER" -> seen' = true /\ before' = before) ->
      (name = bs "VERSION" -> seen' = seen /\ exists w, before' = Some w /\ version_value value w) ->
      (name <> bs "OFXHEADER" -> name <> bs "VERSION" -> seen' = seen /\ before' = before) ->
      exists l, attributes_text l h /\ loop_result seen before l v).
    { intros seen' before' El Hl A1 A2 A3. destruct (IH _ _ _ _ El) as (l & Hat & Hres).
      exists ((name, value) :: l). split.
      - destruct (trim_space_sound s2) as (wl & wr & Hwl & Hwr & Es2 & _).
        assert (Hat2 : attributes_text l s2) by (rewrite Es2; apply attributes_pad; auto).
        subst h. change (attributes_text ((name, value) :: l) ([] ++ name ++ bs "=" ++ [chr 34] ++ value ++ [chr 34] ++ s2)).
        constructor; auto. constructor.
      - apply (loop_result_step seen before name value l v Hl seen' before'); auto. }
    unfold legal_attribute in Hgen.
    destruct (str_eqb name (bs "OFXHEADER")) eqn:N1.
    + apply str_eqb_eq in N1. subst name. destruct (str_eqb value (bs "200")) eqn:V1; [|discriminate].
      apply str_eqb_eq in V1. subst value. apply (Hgen true before H'); auto; try congruence; discriminate.
    + destruct (str_eqb name (bs "VERSION")) eqn:N2.
      * apply str_eqb_eq in N2. subst name.
        destruct (enum_from_string enum_ofxVersion value) as [w [|]] eqn:V2; [|discriminate].
        destruct (N.ltb_spec w OfxVersion200); [discriminate|].
        assert (Hw : version_value value w) by (apply version_value_iff; auto).
        apply (Hgen seen (Some w) H'); eauto; try congruence; discriminate.
      * assert (Hn1 : name <> bs "OFXHEADER") by (intros ->; rewrite str_eqb_refl in N1; discriminate).
        assert (Hn2 : name <> bs "VERSION") by (intros ->; rewrite str_eqb_refl in N2; discriminate).
        destruct (str_eqb name (bs "SECURITY")) eqn:N3.
        -- apply str_eqb_eq in N3. destruct (str_eqb value (bs "NONE")) eqn:V3; [|discriminate].
           apply str_eqb_eq in V3. apply (Hgen seen before H'); auto; congruence.
        -- destruct (str_eqb name (bs "OLDFILEUID") || str_eqb name (bs "NEWFILEUID")) eqn:N4; [|discriminate].
           apply orb_true_iff in N4.
           apply (Hgen seen before H'); auto; try congruence.
           destruct N4 as [N4|N4]; apply str_eqb_eq in N4; auto.
Qed.

Lemma xml_loop_nil fuel seen before : xml_header_loop (S fuel) [] seen before = if seen then before else None.
Proof. reflexivity. Qed.

Lemma xml_loop_step fuel seen before name value rest : legal_attribute name value -> ~ In (chr 34) value ->
  exists seen' before',
    (name = bs "OFXHEADER" -> seen' = true /\ before' = before) /\
    (name = bs "VERSION" -> seen' = seen /\ exists w, before' = Some w /\ version_value value w) /\
    (name <> bs "OFXHEADER" -> name <> bs "VERSION" -> seen' = seen /\ before' = before) /\
    xml_header_loop (S fuel) (name ++ bs "=" ++ [chr 34] ++ value ++ [chr 34] ++ rest) seen before =
    xml_header_loop fuel (trim_space rest) seen' before'.
Proof.
  intros Hl Hq. destruct (legal_name _ _ Hl) as (Heq & c & r & En & Hc).
  assert (E1 : split2 (bs "=" ++ [chr 34]) (name ++ bs "=" ++ [chr 34] ++ value ++ [chr 34] ++ rest) =
               Some (name, value ++ [chr 34] ++ rest)).
  { change (name ++ bs "=" ++ [chr 34] ++ value ++ [chr 34] ++ rest)
      with (name ++ ("="%char :: [chr 34]) ++ (value ++ [chr 34] ++ rest)).
    apply (split2_head "="%char [chr 34]). exact Heq. }
  assert (E2 : split2 [chr 34] (value ++ [chr 34] ++ rest) = Some (value, rest)) by (apply split2_char; exact Hq).
  assert (E : xml_header_loop (S fuel) (name ++ bs "=" ++ [chr 34] ++ value ++ [chr 34] ++ rest) seen before =
          if str_eqb name (bs "OFXHEADER") then
            if str_eqb value (bs "200") then xml_header_loop fuel (trim_space rest) true before else None
          else if str_eqb name (bs "VERSION") then
            match enum_from_string enum_ofxVersion value with
            | (v, true) =>
                if (v <? OfxVersion200)%N then None else xml_header_loop fuel (trim_space rest) seen (Some v)
            | (_, false) => None
            end
          else if str_eqb name (bs "SECURITY") then
            if str_eqb value (bs "NONE") then xml_header_loop fuel (trim_space rest) seen before else None
          else if str_eqb name (bs "OLDFILEUID") || str_eqb name (bs "NEWFILEUID") then
            xml_header_loop fuel (trim_space rest) seen before
          else None).
  { set (h := name ++ bs "=" ++ [chr 34] ++ value ++ [chr 34] ++ rest) in *.
    assert (Hh : exists c' h', h = c' :: h') by (unfold h; rewrite En; eexists; eexists; reflexivity).
    clearbody h. destruct Hh as (c' & h' & ->). cbn [xml_header_loop]. rewrite E1. cbn [bind fst snd]. rewrite E2. reflexivity. }
  rewrite E. clear E E1 E2.
  destruct Hl as [[-> ->]|[[-> (w & Hw)]|[[-> ->]|Hl]]].
  - exists true, before. rewrite !str_eqb_refl. repeat split; auto; try discriminate; congruence.
  - exists seen, (Some w). pose proof Hw as Hw2. apply version_value_iff in Hw2 as [Hf Hv].
    rewrite Hf. destruct (N.ltb_spec w OfxVersion200); [lia|].
    split; [discriminate|]. split; [intros _; split; [reflexivity|eauto]|]. split; [congruence|reflexivity].
  - exists seen, before. repeat split; auto; try discriminate; congruence.
  - exists seen, before. destruct Hl as [->| ->]; repeat split; auto; try discriminate; congruence.
Qed.

Lemma xml_loop_complete l core : attributes_core l core -> forall fuel seen before v, length core < fuel ->
  loop_result seen before l v -> xml_header_loop fuel core seen before = Some v.
Proof.
  induction 1 as [name value Hl Hq|name value w l core Hl Hq Hw Hc IH]; intros fuel seen before v Hf Hr.
  - destruct fuel as [|fuel]; [lia|].
    destruct (xml_loop_step fuel seen before name value [] Hl Hq) as (seen' & before' & A1 & A2 & A3 & E).
    rewrite app_nil_r in E. rewrite E. rewrite (trim_space_nil [] ws_nil).
    destruct fuel as [|fuel]; [rewrite !app_length in Hf; cbn in Hf; lia|]. rewrite xml_loop_nil.
    pose proof (proj1 (loop_result_step seen before name value [] v Hl seen' before' A1 A2 A3) Hr) as [Hs Hv].
    destruct Hs as [Hs|[]]. destruct Hv as [[Hv _]|(a & x & b & E' & _)]; [|destruct a; discriminate].
    rewrite Hs. exact Hv.
  - destruct fuel as [|fuel]; [lia|].
    destruct (xml_loop_step fuel seen before name value (w ++ core) Hl Hq) as (seen' & before' & A1 & A2 & A3 & E).
    rewrite E. destruct (core_trimmed _ _ Hc) as [Ht _].
    assert (Etr : trim_space (w ++ core) = core).
    { rewrite <- (app_nil_r core) at 1. apply trim_space_surround; auto. constructor. }
    rewrite Etr. apply IH.
    + rewrite !app_length in Hf. cbn [length] in Hf. lia.
    + apply (loop_result_step seen before name value l v Hl seen' before' A1 A2 A3). exact Hr.
Qed.

(** Reading the OFX processing instruction. *)
Theorem xml_header_iff inst v : xml_header inst = Some v <-> xml_header_for v inst.
Proof.
  unfold xml_header. split.
  - intros H. apply xml_loop_sound in H as (l & Hat & [Hs Hv]).
    destruct Hs as [Hs|Hs]; [discriminate|]. destruct Hv as [[Hv _]|(a & value & b & -> & Hv & Hb)]; [discriminate|].
    exists a, value, b. split; [|auto].
    destruct (trim_space_sound inst) as (wl & wr & Hwl & Hwr & Ei & _). rewrite Ei. apply attributes_pad; auto.
  - intros (a & value & b & Hat & Hv & Hb & Hin).
    apply attributes_have_core in Hat as [[E _]|(w & core & w' & Hw & Hw' & -> & Hc)]; [destruct a; discriminate|].
    destruct (core_trimmed _ _ Hc) as [Ht _]. rewrite (trim_space_surround _ _ _ Hw Hw' Ht).
    eapply xml_loop_complete; [exact Hc | lia|]. split; [auto|]. right. exists a, value, b. auto.
Qed.

Lemma blank_iff s : blank s = true <-> ws_run s.
Proof.
  unfold blank. rewrite <- trim_space_nil_iff. destruct (trim_space s); cbn [null]; split; congruence.
Qed.

Lemma next_token_iff ts t rest : next_token ts = Some (t, rest) <->
  exists bl, ts = bl ++ t :: rest /\ Forall blank_token bl /\ ~ blank_token t.
Proof.
  split.
  - induction ts as [|x ts IH]; [discriminate|]. cbn [next_token].
    destruct x as [sp nm|sp nm|s|tg inst|].
    1,2,4,5: intros [= <- <-]; exists []; (split; [reflexivity|]; split; [constructor|]); intros (w & E & _); discriminate.
    destruct (blank s) eqn:E.
    + intros H. destruct (IH H) as (bl & -> & Hbl & Ht). exists (TChar s :: bl).
      split; [reflexivity|]. split; auto. constructor; auto. exists s. split; auto. apply blank_iff. exact E.
    + intros [= <- <-]. exists []. split; [reflexivity|]. split; [constructor|]. intros (w & Ew & Hw).
      injection Ew as <-. apply blank_iff in Hw. congruence.
  - intros (bl & -> & Hbl & Ht). induction Hbl as [|x bl (w & -> & Hw) Hbl IH]; cbn [app next_token].
    + destruct t as [sp nm|sp nm|s|tg inst|]; try reflexivity.
      destruct (blank s) eqn:E; [|reflexivity]. exfalso. apply Ht. exists s. split; auto. apply blank_iff. exact E.
    + apply blank_iff in Hw. rewrite Hw. exact IH.
Qed.

(** Reading the XML declaration and the OFX processing instruction. *)
Theorem read_xml_iff ts v rest :
  read_xml_headers ts = Some (v, rest) <->
  exists b1 decl b2 inst,
    ts = b1 ++ TProc (bs "xml") decl :: b2 ++ TProc (bs "OFX") inst :: rest /\
    Forall blank_token b1 /\ Forall blank_token b2 /\ xml_header_for v inst.
Proof.
  unfold read_xml_headers. split.
  - destruct (next_token ts) as [[t1 ts1]|] eqn:E1; [|discriminate]. cbn [bind fst snd].
    destruct t1 as [| | |target decl|]; try discriminate.
    destruct (str_eqb target (bs "xml")) eqn:Et; [|discriminate]. apply str_eqb_eq in Et. subst target. cbn [negb].
    destruct (next_token ts1) as [[t2 ts2]|] eqn:E2; [|discriminate]. cbn [bind fst snd].
    destruct t2 as [| | |target inst|]; try discriminate.
    destruct (str_eqb target (bs "OFX")) eqn:Et; [|discriminate]. apply str_eqb_eq in Et. subst target. cbn [negb].
    destruct (xml_header inst) as [w|] eqn:Ei; [|discriminate]. cbn [bind]. intros [= <- <-].
    apply next_token_iff in E1 as (b1 & -> & Hb1 & _). apply next_token_iff in E2 as (b2 & -> & Hb2 & _).
    exists b1, decl, b2, inst. split; [reflexivity|]. split; auto. split; auto. apply xml_header_iff. exact Ei.
  - intros (b1 & decl & b2 & inst & -> & Hb1 & Hb2 & Hi).
    assert (Hn : forall tg x, ~ blank_token (TProc tg x)) by (intros tg x (w & E & _); discriminate).
    assert (E1 : next_token (b1 ++ TProc (bs "xml") decl :: b2 ++ TProc (bs "OFX") inst :: rest) =
                 Some (TProc (bs "xml") decl, b2 ++ TProc (bs "OFX") inst :: rest))
      by (apply next_token_iff; eauto).
    assert (E2 : next_token (b2 ++ TProc (bs "OFX") inst :: rest) = Some (TProc (bs "OFX") inst, rest))
      by (apply next_token_iff; eauto).
    rewrite E1. cbn [bind fst snd]. rewrite str_eqb_refl. cbn [negb]. rewrite E2. cbn [bind fst snd].
    rewrite str_eqb_refl. cbn [negb]. apply xml_header_iff in Hi. rewrite Hi. reflexivity.
Qed.
