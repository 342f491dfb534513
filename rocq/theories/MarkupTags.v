(** The tags of an XML document: the scanner follows the grammar, in both
    directions. *)
From Coq Require Import Lia Bool List.
From Verif Require Import GoStr GoStrFacts SpecStr Codec Utf8 Xml LexFacts ExtendFacts SpecXml XmlFacts HeaderFacts WrittenHeaderFacts
  SpecMarkup MarkupText.

(** ** Names *)

Lemma name_first_iff c : name_first c = true <-> name_start c.
Proof.
  unfold name_first, name_start, letter, is_upper, is_lower, between. rewrite !orb_true_iff, !andb_true_iff, !N.leb_le, !N.eqb_eq. tauto.
Qed.

Lemma name_byte_iff c : name_byte c = true <-> name_char c.
Proof. unfold name_byte, name_char. rewrite !orb_true_iff, name_first_iff, is_digit_iff, !N.eqb_eq. tauto. Qed.

Lemma is_name_iff nm : is_name nm = true <-> xml_name nm.
Proof.
  unfold is_name, xml_name. destruct nm as [|c r]; [split; [discriminate | intros (c & r & E & _); discriminate]|].
  rewrite andb_true_iff, name_first_iff. cbn [forallb]. rewrite andb_true_iff, name_byte_iff, forallb_forall. split.
  - intros (H1 & _ & H2). exists c, r. split; [reflexivity|]. split; [exact H1|]. apply Forall_forall.
    intros x Hx. apply name_byte_iff, H2, Hx.
  - intros (c' & r' & E & H1 & H2). injection E as <- <-. split; [exact H1|]. split; [left; exact H1|].
    rewrite Forall_forall in H2. intros x Hx. apply name_byte_iff, H2, Hx.
Qed.

Lemma name_chars nm : xml_name nm -> Forall (fun c => name_or_high c = true) nm.
Proof.
  intros (c & r & -> & H1 & H2). unfold name_or_high. constructor.
  - apply orb_true_iff. left. apply name_byte_iff. left. exact H1.
  - eapply Forall_impl; [|exact H2]. intros x Hx. apply orb_true_iff. left. apply name_byte_iff, Hx.
Qed.

Lemma read_name_sound s nm rest : read_name s = Some (nm, rest) ->
  xml_name nm /\ s = nm ++ rest /\ rest <> [] /\ forall c r, rest = c :: r -> name_or_high c = false.
Proof.
  unfold read_name. destruct (span name_or_high s) as [a b] eqn:Es. apply span_forall in Es as (-> & _ & Hb).
  destruct (is_name a && negb (null b)) eqn:E; [|discriminate]. intros [= <- <-].
  apply andb_true_iff in E as [E1 E2]. split; [apply is_name_iff, E1|]. split; [reflexivity|]. split; [|exact Hb].
  destruct b; [discriminate | discriminate].
Qed.

Lemma read_name_complete nm c r : xml_name nm -> name_or_high c = false -> read_name (nm ++ c :: r) = Some (nm, c :: r).
Proof.
  intros Hn Hc. unfold read_name. rewrite span_exact; [|exact (name_chars nm Hn)|intros c' r' [= <- _]; exact Hc].
  apply is_name_iff in Hn. rewrite Hn. reflexivity.
Qed.

Lemma split_name_iff nm sp lo : split_name nm = (sp, lo) <-> qualified nm sp lo.
Proof.
  unfold split_name, qualified. destruct (split2 (bs ":") nm) as [[a b]|] eqn:E.
  - apply split2_some_char in E as [-> Hn]. split.
    + intros [= <- <-]. right. split; [reflexivity | exact Hn].
    + intros [(-> & <- & H)|[E H]]; [exfalso; apply H, in_app_iff; right; left; reflexivity|].
      destruct (first_colon a sp b lo Hn H E) as [-> ->]. reflexivity.
  - split.
    + intros [= <- <-]. left. split; [reflexivity|]. split; [reflexivity|]. intros Hin. apply in_split in Hin as (l1 & l2 & ->).
      clear - E. revert E. induction l1 as [|c l1 IH].
      * unfold split2. cbn. discriminate.
      * unfold split2 in *. cbn [app index_of]. destruct (has_prefix (bs ":") (c :: l1 ++ ":"%char :: l2)); [discriminate|].
        destruct (index_of (bs ":") (l1 ++ ":"%char :: l2)); [discriminate | exact IH].
    + intros [(-> & <- & H)|[-> H]]; [reflexivity|]. exfalso. change (bs ":") with [":"%char] in E.
      rewrite split2_head in E by exact H. discriminate.
Qed.

(** ** White space *)

Lemma xml_space_iff c : xml_space c = true <-> xml_ws [c].
Proof.
  unfold xml_space, xml_ws. rewrite !orb_true_iff, !N.eqb_eq. split.
  - intros H. constructor; [tauto | constructor].
  - intros H. apply Forall_inv in H. tauto.
Qed.

Lemma skip_space_split s : exists w, xml_ws w /\ s = w ++ skip_space s /\ forall c r, skip_space s = c :: r -> xml_space c = false.
Proof.
  induction s as [|c s (w & Hw & E & H)]; cbn [skip_space].
  - exists []. repeat split; [constructor | discriminate].
  - destruct (xml_space c) eqn:Ec.
    + exists (c :: w). split; [constructor; [exact (Forall_inv (proj1 (xml_space_iff c) Ec)) | exact Hw]|].
      split; [cbn [app]; rewrite <- E; reflexivity | exact H].
    + exists []. split; [constructor|]. split; [reflexivity|]. intros c' r [= <- _]. exact Ec.
Qed.

Lemma skip_space_app w c r : xml_ws w -> xml_space c = false -> skip_space (w ++ c :: r) = c :: r.
Proof.
  intros Hw Hc. induction w as [|x w IH]; cbn [app skip_space]; [rewrite Hc; reflexivity|].
  rewrite (proj2 (xml_space_iff x)) by (constructor; [exact (Forall_inv Hw) | constructor]). apply IH. exact (Forall_inv_tail Hw).
Qed.

Lemma space_not_name c : xml_ws [c] -> name_or_high c = false.
Proof.
  intros H. apply Forall_inv in H. unfold name_or_high. apply orb_false_iff. split.
  - destruct (name_byte c) eqn:E; [|reflexivity]. apply name_byte_iff in E. unfold name_char, name_start, letter, digit in E. lia.
  - apply N.leb_gt. lia.
Qed.

Lemma name_not_space c : name_start c -> xml_space c = false.
Proof.
  intros H. destruct (xml_space c) eqn:E; [|reflexivity]. apply xml_space_iff, Forall_inv in E.
  unfold name_start, letter in H. lia.
Qed.

(** ** Attributes *)

Lemma attr_value_sound s r : attr_value true s = Some r -> r <> [] ->
  exists q t raw, (q = "'"%char \/ q = chr 34) /\ text_spells t raw /\ ~ In q raw /\ s = [q] ++ raw ++ [q] ++ r.
Proof.
  unfold attr_value. destruct s as [|q s]; [discriminate|].
  destruct (Ascii.eqb q "'" || (code q =? 34)%N) eqn:Eq; [|discriminate].
  assert (Hq : q = "'"%char \/ q = chr 34).
  { apply orb_true_iff in Eq as [E|E]; [left; apply Ascii.eqb_eq, E|]. right. apply N.eqb_eq in E.
    rewrite <- (chr_code q), E. reflexivity. }
  destruct (read_text true (Some q) false s) as [[t r0]|] eqn:E; [|discriminate]. cbn [option_map snd]. intros [= ->] Hr.
  destruct (read_quoted_sound q s t r Hq E) as (raw & Ht & Hn & [-> | ->]); [|contradiction].
  exists q, t, raw. split; [exact Hq|]. split; [exact Ht|]. split; [exact Hn | reflexivity].
Qed.

Definition tag_close (e : bool) : str := if e then bs "/>" else bs ">".

Lemma attributes_sound fuel : forall s e r, attributes fuel true s = Some (e, r) ->
  exists a, tag_attributes a /\ s = a ++ tag_close e ++ r.
Proof.
  induction fuel as [|fuel IH]; intros s e r H; [discriminate|]. cbn [attributes] in H.
  destruct (skip_space_split s) as (w & Hw & Es & _). set (s0 := skip_space s) in *. clearbody s0. subst s.
  destruct (after (bs "/") s0) as [s1|] eqn:E1.
  - apply after_some in E1. subst s0. destruct (after (bs ">") s1) as [s2|] eqn:E2; [|discriminate].
    apply after_some in E2. subst s1. injection H as <- <-. exists w. split; [apply attributes_none, Hw | reflexivity].
  - destruct (after (bs ">") s0) as [s1|] eqn:E2.
    + apply after_some in E2. subst s0. injection H as <- <-. exists w. split; [apply attributes_none, Hw | reflexivity].
    + destruct (read_name s0) as [[nm r0]|] eqn:E3; [|discriminate]. cbn [bind snd] in H.
      apply read_name_sound in E3 as (Hn & -> & _). destruct (skip_space_split r0) as (w1 & Hw1 & Er0 & _).
      set (r1 := skip_space r0) in *. clearbody r1. subst r0.
      destruct (after (bs "=") r1) as [s2|] eqn:E4; [|discriminate]. apply after_some in E4. subst r1.
      destruct (skip_space_split s2) as (w2 & Hw2 & Es2 & _). set (s3 := skip_space s2) in *. clearbody s3. subst s2.
      destruct (attr_value true s3) as [s4|] eqn:E5; [|discriminate]. cbn [bind] in H.
      destruct (attr_value_sound s3 s4 E5) as (q & t & raw & Hq & Ht & Hnq & ->).
      { intros ->. rewrite attributes_nil in H. discriminate. }
      destruct (IH _ _ _ H) as (a & Ha & ->).
      exists (w ++ nm ++ w1 ++ bs "=" ++ w2 ++ [q] ++ raw ++ [q] ++ a).
      split; [eapply attributes_one; eauto|]. rewrite <- !app_assoc. reflexivity.
Qed.

Lemma attributes_complete a : tag_attributes a -> forall fuel e r, length a < fuel ->
  attributes fuel true (a ++ tag_close e ++ r) = Some (e, r).
Proof.
  induction 1 as [w Hw|w nm w1 w2 q t raw rest Hw Hn Hw1 Hw2 Hq Ht Hnq Ha IH]; intros fuel e r Hf; (destruct fuel as [|fuel]; [lia|]).
  - cbn [attributes]. destruct e; unfold tag_close.
    + change (w ++ bs "/>" ++ r) with (w ++ "/"%char :: bs ">" ++ r). rewrite skip_space_app by (auto; reflexivity).
      change ("/"%char :: bs ">" ++ r) with (bs "/" ++ bs ">" ++ r). rewrite !after_app. reflexivity.
    + change (w ++ bs ">" ++ r) with (w ++ ">"%char :: r). rewrite skip_space_app by (auto; reflexivity). reflexivity.
  - pose proof Hn as (c & n & En & Hc & _). rewrite <- !app_assoc. cbn [attributes].
    assert (E : skip_space (w ++ nm ++ w1 ++ bs "=" ++ w2 ++ [q] ++ raw ++ [q] ++ rest ++ tag_close e ++ r) =
      nm ++ w1 ++ bs "=" ++ w2 ++ [q] ++ raw ++ [q] ++ rest ++ tag_close e ++ r).
    { rewrite En. cbn [app]. apply skip_space_app; [exact Hw | apply name_not_space, Hc]. }
    rewrite E. change (bs "/") with ["/"%char]. change (bs ">") with [">"%char].
    assert (E1 : forall x y, after [x] (nm ++ y) = None \/ x = c).
    { intros x y. rewrite En. unfold after. cbn [app]. destruct (has_prefix [x] (c :: n ++ y)) eqn:Ep; [|auto].
      apply has_prefix_spec in Ep as [z Ez]. injection Ez as -> _. auto. }
    destruct (E1 "/"%char (w1 ++ bs "=" ++ w2 ++ [q] ++ raw ++ [q] ++ rest ++ tag_close e ++ r)) as [-> | <-];
      [|unfold name_start, letter in Hc; vm_compute in Hc; intuition congruence].
    destruct (E1 ">"%char (w1 ++ bs "=" ++ w2 ++ [q] ++ raw ++ [q] ++ rest ++ tag_close e ++ r)) as [-> | <-];
      [|unfold name_start, letter in Hc; vm_compute in Hc; intuition congruence].
    assert (E2 : exists d y, w1 ++ bs "=" ++ w2 ++ [q] ++ raw ++ [q] ++ rest ++ tag_close e ++ r = d :: y /\ name_or_high d = false).
    { destruct w1 as [|d w1]; [eexists; eexists; split; [reflexivity | reflexivity]|]. eexists; eexists; split; [reflexivity|].
      apply space_not_name. constructor; [exact (Forall_inv Hw1) | constructor]. }
    destruct E2 as (d & y & Ey & Hd). rewrite Ey, read_name_complete by auto. cbn [bind snd]. rewrite <- Ey.
    change (w1 ++ bs "=" ++ w2 ++ [q] ++ raw ++ [q] ++ rest ++ tag_close e ++ r)
      with (w1 ++ "="%char :: w2 ++ [q] ++ raw ++ [q] ++ rest ++ tag_close e ++ r).
    rewrite skip_space_app by (auto; reflexivity).
    change ("="%char :: w2 ++ [q] ++ raw ++ [q] ++ rest ++ tag_close e ++ r)
      with (bs "=" ++ w2 ++ [q] ++ raw ++ [q] ++ rest ++ tag_close e ++ r). rewrite after_app.
    change (w2 ++ [q] ++ raw ++ [q] ++ rest ++ tag_close e ++ r) with (w2 ++ q :: raw ++ [q] ++ rest ++ tag_close e ++ r).
    assert (Hqs : xml_space q = false) by (destruct Hq as [-> | ->]; reflexivity).
    rewrite skip_space_app by auto.
    assert (Ev : attr_value true (q :: raw ++ [q] ++ rest ++ tag_close e ++ r) = Some (rest ++ tag_close e ++ r)).
    { unfold attr_value. assert (Eq : Ascii.eqb q "'" || (code q =? 34)%N = true) by (destruct Hq as [-> | ->]; reflexivity).
      rewrite Eq. change ([q] ++ rest ++ tag_close e ++ r) with (q :: rest ++ tag_close e ++ r).
      rewrite (read_quoted_complete q t raw _ Hq Ht Hnq). reflexivity. }
    rewrite Ev. cbn [bind]. apply IH. rewrite !app_length in Hf. cbn [length] in Hf. lia.
Qed.

Lemma rest_of_tag a e r x : tag_attributes a -> x = a ++ tag_close e ++ r ->
  (forall c y, x = c :: y -> name_or_high c = false) -> tag_rest a.
Proof.
  intros Ha -> Hx. split; [exact Ha|]. intros c y ->. cbn [app] in Hx. specialize (Hx _ _ eq_refl).
  inversion Ha as [w Hw E|w nm w1 w2 q t raw rest Hw Hn Hw1 Hw2 Hq Ht Hnq Hr E]; subst.
  - constructor; [exact (Forall_inv Hw) | constructor].
  - destruct w as [|d w].
    + destruct Hn as (c' & n & -> & Hc & _). cbn [app] in E. injection E as -> _.
      unfold name_or_high in Hx. apply orb_false_iff in Hx as [Hx _].
      assert (name_byte c = true) by (apply name_byte_iff; left; exact Hc). congruence.
    + injection E as -> _. constructor; [exact (Forall_inv Hw) | constructor].
Qed.

Lemma tag_rest_next a e r : tag_rest a -> exists c y, a ++ tag_close e ++ r = c :: y /\ name_or_high c = false.
Proof.
  intros [_ Ha]. destruct a as [|c a].
  - destruct e; eexists; eexists; (split; [reflexivity | reflexivity]).
  - eexists; eexists; split; [reflexivity|]. apply space_not_name, (Ha c a eq_refl).
Qed.

(** ** Comments and the like *)

Lemma split2_first p s a r : split2 p s = Some (a, r) -> forall x y, s = x ++ p ++ y -> length a <= length x.
Proof.
  unfold split2. destruct (index_of p s) as [n|] eqn:E; [|discriminate]. intros [= <- <-] x y Es.
  destruct (Nat.le_gt_cases n (length x)) as [H|H].
  - rewrite firstn_length. lia.
  - exfalso. apply (index_of_first p s n E (length x) y H). rewrite Es, skipn_app, skipn_all, Nat.sub_diag. reflexivity.
Qed.

Lemma index_of_found p : forall s x y, s = x ++ p ++ y -> exists n, index_of p s = Some n.
Proof.
  induction s as [|c s IH]; intros x y E.
  - destruct x; [|discriminate]. cbn [app] in E. cbn [index_of]. assert (Ep : has_prefix p [] = true) by (apply has_prefix_spec; eauto). rewrite Ep. eauto.
  - cbn [index_of]. destruct (has_prefix p (c :: s)) eqn:Ep; [eauto|]. destruct x as [|d x].
    + cbn [app] in E. rewrite E, has_prefix_app in Ep. discriminate Ep.
    + injection E as -> E. destruct (IH _ _ E) as [n ->]. eauto.
Qed.

Lemma split2_complete p a r : p <> [] -> ~ occurs p (a ++ removelast p) -> split2 p (a ++ p ++ r) = Some (a, r).
Proof.
  intros Hp Ho. destruct (index_of_found p (a ++ p ++ r) a r eq_refl) as [n E].
  assert (Hs : exists x y, split2 p (a ++ p ++ r) = Some (x, y)) by (unfold split2; rewrite E; eauto).
  destruct Hs as (x & y & Hs). rewrite Hs. pose proof (split2_some _ _ _ _ Hs) as E1. pose proof (split2_first _ _ _ _ Hs a r eq_refl) as Hl.
  destruct (Nat.eq_dec (length x) (length a)) as [El|El].
  - assert (x = a).
    { apply (f_equal (firstn (length a))) in E1. rewrite firstn_app, Nat.sub_diag, firstn_all, app_nil_r in E1.
      rewrite <- El in E1. rewrite firstn_app, Nat.sub_diag, firstn_all, app_nil_r in E1. auto. }
    subst x. apply app_inv_head in E1. apply app_inv_head in E1. subst y. reflexivity.
  - exfalso. apply Ho. exists x.
    assert (Hlen : length x + length p <= length (a ++ removelast p)).
    { rewrite app_length. assert (length (removelast p) = length p - 1).
      { clear - Hp. induction p as [|c p IH]; [congruence|]. destruct p as [|d p]; [reflexivity|].
        change (removelast (c :: d :: p)) with (c :: removelast (d :: p)). cbn [length]. rewrite IH by discriminate. cbn [length]. lia. }
      destruct p; [congruence|]. cbn [length] in *. lia. }
    exists (skipn (length x + length p) (a ++ removelast p)).
    assert (E2 : a ++ p ++ r = (a ++ removelast p) ++ [last p "x"%char] ++ r).
    { rewrite (app_removelast_last "x"%char Hp) at 1. rewrite <- !app_assoc. reflexivity. }
    rewrite E2 in E1. rewrite <- (firstn_skipn (length x + length p) (a ++ removelast p)) at 1.
    apply (f_equal (firstn (length x + length p))) in E1. rewrite firstn_app in E1.
    replace (length x + length p - length (a ++ removelast p)) with 0 in E1 by lia. rewrite app_nil_r in E1. rewrite E1.
    rewrite app_assoc, firstn_app, app_length, Nat.sub_diag. rewrite <- app_length, firstn_all, app_nil_r, <- app_assoc. reflexivity.
Qed.
