(** SGML: the attributes of tags, in both directions. *)
From Coq Require Import QArith Lia Bool List.
From Verif Require Import GoStr GoStrFacts SpecStr Codec Utf8 Xml LexFacts ExtendFacts SpecXml XmlFacts SpellFacts SpecHeader HeaderFacts SpecMarkup SpecSgml
  MarkupText MarkupTags SgmlText.
Close Scope Q_scope.

Definition value_byte (c : ascii) : bool :=
  is_upper c || is_lower c || is_digit c || (code c =? 95)%N || (code c =? 58)%N || (code c =? 45)%N.

Lemma value_byte_iff c : value_byte c = true <-> value_char c.
Proof.
  unfold value_byte, value_char, letter, digit, is_upper, is_lower, is_digit, between.
  rewrite !orb_true_iff, !andb_true_iff, !N.leb_le, !N.eqb_eq. tauto.
Qed.

Lemma quote_dec q : Ascii.eqb q "'" || (code q =? 34)%N = true <-> q = "'"%char \/ q = chr 34.
Proof.
  rewrite orb_true_iff, Ascii.eqb_eq, N.eqb_eq. split; (intros [E|E]; [left; exact E|right]); [|subst q; reflexivity].
  rewrite <- (chr_code q), E. reflexivity.
Qed.

Lemma loose_value_sound s r : attr_value false s = Some r -> r <> [] ->
  (exists q t raw, (q = "'"%char \/ q = chr 34) /\ loose_text t raw /\ ~ In q raw /\ s = [q] ++ raw ++ [q] ++ r) \/
  (exists v, Forall value_char v /\ s = v ++ r /\ forall c y, r = c :: y -> ~ value_char c).
Proof.
  unfold attr_value. destruct s as [|q s]; [discriminate|].
  destruct (Ascii.eqb q "'" || (code q =? 34)%N) eqn:Eq.
  - apply quote_dec in Eq. destruct (read_text false (Some q) false s) as [[t r0]|] eqn:E; [|discriminate].
    cbn [option_map snd]. intros [= ->] Hr.
    destruct (loose_quoted_sound q s t r Eq E) as (raw & Ht & Hn & [-> | ->]); [|contradiction].
    left. exists q, t, raw. auto.
  - change (fun c => is_upper c || is_lower c || is_digit c || (code c =? 95)%N || (code c =? 58)%N || (code c =? 45)%N) with value_byte.
    destruct (span value_byte (q :: s)) as [v rest] eqn:Es.
    destruct (null rest); [discriminate|]. intros [= <-] _. apply span_forall in Es as (-> & Hv & Hr).
    right. exists v. split; [eapply Forall_impl; [|exact Hv]; intros c; apply value_byte_iff|]. split; [reflexivity|].
    intros c y E Hc. apply value_byte_iff in Hc. rewrite (Hr c y E) in Hc. discriminate.
Qed.

Lemma name_start_value c : name_start c -> value_char c.
Proof. unfold name_start, value_char. tauto. Qed.

Lemma ws_first w c : xml_ws (c :: w) -> xml_ws [c].
Proof. intros H. constructor; [exact (Forall_inv H) | constructor]. Qed.

Lemma loose_attributes_first c r : loose_attributes (c :: r) -> xml_ws [c] \/ name_start c.
Proof.
  assert (H : forall w nm x, xml_ws w -> xml_name nm -> w ++ nm ++ x = c :: r -> xml_ws [c] \/ name_start c).
  { intros w nm x Hw (d & n & -> & Hd & _) E. destruct w as [|d' w]; injection E as -> _; [auto | left; eapply ws_first; eauto]. }
  intros Ha. inversion Ha; subst; eauto. left. eapply ws_first; eauto.
Qed.

Lemma loose_attributes_ws w a : xml_ws w -> loose_attributes a -> loose_attributes (w ++ a).
Proof.
  intros Hw Ha. inversion Ha; subst; try rewrite app_assoc.
  - constructor. apply Forall_app. auto.
  - eapply loose_quoted; eauto. apply Forall_app. auto.
  - eapply loose_unquoted; eauto. apply Forall_app. auto.
  - eapply loose_bare; eauto. apply Forall_app. auto.
Qed.

Lemma not_high_ws c a e r y : loose_attributes a -> a ++ tag_close e ++ r = c :: y -> ~ name_start c -> forall d z, a = d :: z -> xml_ws [d].
Proof.
  intros Ha E Hc d z ->. cbn [app] in E. injection E as -> _. destruct (loose_attributes_first _ _ Ha); [assumption|contradiction].
Qed.

Lemma start_high c : name_start c -> name_or_high c = true.
Proof. intros H. unfold name_or_high. rewrite (proj2 (name_byte_iff c)) by (left; exact H). reflexivity. Qed.

Lemma loose_attributes_sound fuel : forall s e r, attributes fuel false s = Some (e, r) ->
  exists a, loose_attributes a /\ s = a ++ tag_close e ++ r.
Proof.
  induction fuel as [|fuel IH]; intros s e r H; [discriminate|]. cbn [attributes] in H.
  destruct (skip_space_split s) as (w & Hw & Es & _). set (s0 := skip_space s) in *. clearbody s0. subst s.
  destruct (after (bs "/") s0) as [s1|] eqn:E1.
  - apply after_some in E1. subst s0. destruct (after (bs ">") s1) as [s2|] eqn:E2; [|discriminate].
    apply after_some in E2. subst s1. injection H as <- <-. exists w. split; [apply loose_none, Hw | reflexivity].
  - destruct (after (bs ">") s0) as [s1|] eqn:E2.
    + apply after_some in E2. subst s0. injection H as <- <-. exists w. split; [apply loose_none, Hw | reflexivity].
    + destruct (read_name s0) as [[nm r0]|] eqn:E3; [|discriminate]. cbn [bind snd] in H.
      apply read_name_sound in E3 as (Hn & -> & Hne & Hhigh). destruct (skip_space_split r0) as (w1 & Hw1 & Er0 & _).
      set (r1 := skip_space r0) in *. clearbody r1.
      destruct (after (bs "=") r1) as [s2|] eqn:E4.
      * subst r0. apply after_some in E4. subst r1.
        destruct (skip_space_split s2) as (w2 & Hw2 & Es2 & Hns). set (s3 := skip_space s2) in *. clearbody s3. subst s2.
        destruct (attr_value false s3) as [s4|] eqn:E5; [|discriminate]. cbn [bind] in H.
        assert (Hr : s4 <> []) by (intros ->; rewrite attributes_nil in H; discriminate).
        destruct (IH _ _ _ H) as (a & Ha & ->).
        destruct (loose_value_sound s3 _ E5 Hr) as [(q & t & raw & Hq & Ht & Hnq & ->)|(v & Hv & -> & Hend)].
        -- exists (w ++ nm ++ w1 ++ bs "=" ++ w2 ++ [q] ++ raw ++ [q] ++ a).
           split; [eapply loose_quoted; eauto|]. rewrite <- !app_assoc. reflexivity.
        -- exists (w ++ nm ++ w1 ++ bs "=" ++ w2 ++ v ++ a). split; [|rewrite <- !app_assoc; reflexivity].
           apply loose_unquoted; auto. intros c y ->. cbn [app] in Hend. specialize (Hend _ _ eq_refl).
           assert (Hc : xml_ws [c]).
           { destruct (loose_attributes_first _ _ Ha) as [Hc|Hc]; [exact Hc|]. contradiction Hend. apply name_start_value, Hc. }
           split; [|exact Hc]. intros ->. cbn [app] in Hns. specialize (Hns _ _ eq_refl). apply xml_space_iff in Hc. congruence.
      * destruct (false || null r1) eqn:En; [discriminate|]. apply IH in H as (a & Ha & ->). subst r0.
        exists (w ++ nm ++ w1 ++ a). split; [|rewrite <- !app_assoc; reflexivity].
        apply loose_bare; auto; [|apply loose_attributes_ws; assumption].
        intros c y E. rewrite app_assoc, E in Hhigh. cbn [app] in Hhigh. specialize (Hhigh _ _ eq_refl).
        assert (Hwa : loose_attributes (c :: y)) by (rewrite <- E; apply loose_attributes_ws; assumption).
        destruct (loose_attributes_first _ _ Hwa) as [Hc|Hc]; [exact Hc|]. apply start_high in Hc. congruence.
Qed.

(** What is left of the attributes begins with a name or with the end of the tag. *)
Lemma loose_attributes_next a e r : loose_attributes a -> exists w c y,
  xml_ws w /\ a ++ tag_close e ++ r = w ++ c :: y /\ (name_start c \/ c = "/"%char \/ c = ">"%char).
Proof.
  assert (H : forall w nm x, xml_ws w -> xml_name nm -> exists w0 c y,
    xml_ws w0 /\ (w ++ nm ++ x) ++ tag_close e ++ r = w0 ++ c :: y /\ (name_start c \/ c = "/"%char \/ c = ">"%char)).
  { intros w nm x Hw (d & n & -> & Hd & _). exists w, d, (n ++ x ++ tag_close e ++ r).
    split; [exact Hw|]. split; [rewrite <- !app_assoc; cbn [app]; rewrite <- ?app_assoc; reflexivity | auto]. }
  intros Ha. inversion Ha; subst; auto. destruct e; do 3 eexists; (split; [eassumption|]); (split; [reflexivity | auto]).
Qed.

Lemma next_not c : name_start c \/ c = "/"%char \/ c = ">"%char -> xml_space c = false /\ c <> "="%char.
Proof.
  intros [H|[-> | ->]]; [|split; [reflexivity | discriminate]..]. split; [apply name_not_space, H|].
  intros ->. unfold name_start, letter in H. vm_compute in H. intuition congruence.
Qed.

Lemma attributes_skip fuel st s : attributes fuel st (skip_space s) = attributes fuel st s.
Proof.
  destruct fuel as [|fuel]; [reflexivity|]. cbn [attributes].
  assert (E : skip_space (skip_space s) = skip_space s).
  { destruct (skip_space_split s) as (w & _ & _ & H). destruct (skip_space s) as [|c y]; [reflexivity|].
    cbn [skip_space]. rewrite (H c y eq_refl). reflexivity. }
  rewrite E. reflexivity.
Qed.

Lemma after_other x c y : c <> x -> after [x] (c :: y) = None.
Proof.
  intros H. unfold after. destruct (has_prefix [x] (c :: y)) eqn:E; [|reflexivity].
  apply has_prefix_spec in E as [z Ez]. injection Ez as -> _. congruence.
Qed.

Lemma not_value c : ~ value_char c -> value_byte c = false.
Proof. intros H. destruct (value_byte c) eqn:E; [|reflexivity]. apply value_byte_iff in E. contradiction. Qed.

Lemma ws_not_value c : xml_ws [c] -> ~ value_char c.
Proof. intros H. apply Forall_inv in H. unfold value_char, letter, digit. lia. Qed.

(** The step over a name in a tag. *)
Lemma attributes_name fuel w nm x : xml_ws w -> xml_name nm -> (exists d y, x = d :: y /\ name_or_high d = false) ->
  attributes (S fuel) false (w ++ nm ++ x) =
  match after (bs "=") (skip_space x) with
  | Some s2 => s3 <- attr_value false (skip_space s2) ;; attributes fuel false s3
  | None => if false || null (skip_space x) then None else attributes fuel false (skip_space x)
  end.
Proof.
  intros Hw Hn (d & y & -> & Hd). pose proof Hn as (c & n & En & Hc & _). cbn [attributes].
  assert (E : skip_space (w ++ nm ++ d :: y) = nm ++ d :: y).
  { rewrite En. cbn [app]. apply skip_space_app; [exact Hw | apply name_not_space, Hc]. }
  rewrite E.
  assert (Hx : forall x, x = "/"%char \/ x = ">"%char -> after [x] (nm ++ d :: y) = None).
  { intros x Hx. rewrite En. cbn [app]. apply after_other. intros ->. unfold name_start, letter in Hc.
    destruct Hx as [-> | ->]; vm_compute in Hc; intuition congruence. }
  change (bs "/") with ["/"%char]. change (bs ">") with [">"%char]. rewrite (Hx "/"%char) by auto. rewrite (Hx ">"%char) by auto.
  rewrite read_name_complete by auto. cbn [bind snd]. reflexivity.
Qed.

Lemma loose_attributes_complete a : loose_attributes a -> forall fuel e r, length a < fuel ->
  attributes fuel false (a ++ tag_close e ++ r) = Some (e, r).
Proof.
  assert (Heq : forall w1 x, xml_ws w1 -> exists d y, w1 ++ bs "=" ++ x = d :: y /\ name_or_high d = false).
  { intros w1 x H. destruct w1 as [|d w1]; [do 2 eexists; split; reflexivity|]. do 2 eexists. split; [reflexivity|].
    apply space_not_name. eapply ws_first; eauto. }
  induction 1 as [w Hw|w nm w1 w2 q t raw rest Hw Hn Hw1 Hw2 Hq Ht Hnq Ha IH|w nm w1 w2 v rest Hw Hn Hw1 Hw2 Hv Hr Ha IH|w nm rest Hw Hn Hr Ha IH];
    intros fuel e r Hf; (destruct fuel as [|fuel]; [lia|]).
  - cbn [attributes]. destruct e; unfold tag_close.
    + change (w ++ bs "/>" ++ r) with (w ++ "/"%char :: bs ">" ++ r). rewrite skip_space_app by (auto; reflexivity).
      change ("/"%char :: bs ">" ++ r) with (bs "/" ++ bs ">" ++ r). rewrite !after_app. reflexivity.
    + change (w ++ bs ">" ++ r) with (w ++ ">"%char :: r). rewrite skip_space_app by (auto; reflexivity). reflexivity.
  - rewrite <- !app_assoc. rewrite attributes_name by auto.
    change (w1 ++ bs "=" ++ ?x) with (w1 ++ "="%char :: x).
    rewrite skip_space_app by (auto; reflexivity). change ("="%char :: ?x) with (bs "=" ++ x). rewrite after_app.
    change (w2 ++ [q] ++ ?x) with (w2 ++ q :: x).
    assert (Hqs : xml_space q = false) by (destruct Hq as [-> | ->]; reflexivity).
    rewrite skip_space_app by auto.
    assert (Ev : attr_value false (q :: raw ++ [q] ++ rest ++ tag_close e ++ r) = Some (rest ++ tag_close e ++ r)).
    { unfold attr_value. rewrite (proj2 (quote_dec q) Hq). change ([q] ++ rest ++ tag_close e ++ r) with (q :: rest ++ tag_close e ++ r).
      rewrite (loose_quoted_complete q t raw _ Hq Ht Hnq). reflexivity. }
    rewrite Ev. cbn [bind]. apply IH. rewrite !app_length in Hf. cbn [length] in Hf. lia.
  - rewrite <- !app_assoc. rewrite attributes_name by auto.
    change (w1 ++ bs "=" ++ ?x) with (w1 ++ "="%char :: x).
    rewrite skip_space_app by (auto; reflexivity). change ("="%char :: ?x) with (bs "=" ++ x). rewrite after_app.
    assert (Hnext : exists d y, rest ++ tag_close e ++ r = d :: y /\ ~ value_char d /\ (v = [] -> xml_space d = false /\ d <> "'"%char /\ d <> chr 34)).
    { destruct rest as [|d rest].
      - destruct e; do 2 eexists; (split; [reflexivity|]); (split; [unfold value_char, letter, digit; vm_compute; intuition congruence|]);
          intros _; repeat split; discriminate.
      - destruct (Hr d rest eq_refl) as [Hv0 Hd]. do 2 eexists. split; [reflexivity|]. split; [apply ws_not_value, Hd|]. intros ->. congruence. }
    destruct Hnext as (d & y & Ed & Hd & Hd0).
    assert (Ev : attr_value false (skip_space (w2 ++ v ++ rest ++ tag_close e ++ r)) = Some (rest ++ tag_close e ++ r)).
    { rewrite Ed.
      assert (Esp : skip_space (w2 ++ v ++ d :: y) = v ++ d :: y).
      { destruct v as [|c v]; cbn [app]; (apply skip_space_app; [exact Hw2|]); [apply Hd0; reflexivity|].
        apply Forall_inv in Hv. destruct (xml_space c) eqn:Ec; [|reflexivity]. apply xml_space_iff in Ec. contradiction (ws_not_value c Ec Hv). }
      rewrite Esp. assert (Eq : exists c z, v ++ d :: y = c :: z /\ Ascii.eqb c "'" || (code c =? 34)%N = false).
      { destruct v as [|c v]; cbn [app]; do 2 eexists; (split; [reflexivity|]); apply not_true_iff_false; rewrite quote_dec; intros Hc.
        - destruct (Hd0 eq_refl) as (_ & H1 & H2). tauto.
        - apply Forall_inv in Hv. unfold value_char, letter, digit in Hv. destruct Hc as [-> | ->]; vm_compute in Hv; intuition congruence. }
      destruct Eq as (c & z & Ec & Eq). unfold attr_value. rewrite Ec, Eq.
      change (fun c => is_upper c || is_lower c || is_digit c || (code c =? 95)%N || (code c =? 58)%N || (code c =? 45)%N) with value_byte.
      rewrite <- Ec, span_exact; [reflexivity| |].
      - eapply Forall_impl; [|exact Hv]. intros x. apply value_byte_iff.
      - intros c' r' [= <- _]. apply not_value, Hd. }
    rewrite Ev. cbn [bind]. apply IH. rewrite !app_length in Hf. change (length (bs "=")) with 1 in Hf. lia.
  - rewrite <- !app_assoc. rewrite attributes_name; auto.
    + destruct (loose_attributes_next rest e r Ha) as (w0 & c & y & Hw0 & E & Hc). destruct (next_not c Hc) as [Hs Hne].
      rewrite E. rewrite skip_space_app by auto. change (bs "=") with ["="%char]. rewrite after_other by exact Hne. cbn [orb null].
      rewrite <- (skip_space_app w0 c y Hw0 Hs), attributes_skip, <- E. apply IH.
      pose proof Hn as (c0 & n0 & -> & _). rewrite !app_length in Hf. cbn [length] in Hf. lia.
    + destruct rest as [|d rest]; [destruct e; do 2 eexists; (split; [reflexivity | reflexivity])|].
      do 2 eexists. split; [reflexivity|]. apply space_not_name, (Hr d rest eq_refl).
Qed.

Lemma rest_of_loose a e r x : loose_attributes a -> x = a ++ tag_close e ++ r ->
  (forall c y, x = c :: y -> name_or_high c = false) -> loose_rest a.
Proof.
  intros Ha -> Hx. split; [exact Ha|]. intros c y ->. cbn [app] in Hx. specialize (Hx _ _ eq_refl).
  destruct (loose_attributes_first _ _ Ha) as [Hc|Hc]; [exact Hc|]. apply start_high in Hc. congruence.
Qed.

Lemma loose_rest_next a e r : loose_rest a -> exists c y, a ++ tag_close e ++ r = c :: y /\ name_or_high c = false.
Proof.
  intros [_ Ha]. destruct a as [|c a].
  - destruct e; eexists; eexists; (split; [reflexivity | reflexivity]).
  - eexists; eexists; split; [reflexivity|]. apply space_not_name, (Ha c a eq_refl).
Qed.
