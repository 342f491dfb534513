(** SGML: the text a document is read as, in both directions. *)
From Coq Require Import QArith Lia Bool List.
From Verif Require Import GoStr GoStrFacts SpecStr Codec Utf8 Xml LexFacts SpecXml XmlFacts SpecHeader HeaderFacts SpecMarkup SpecSgml
  MarkupText MarkupTags.
Close Scope Q_scope.

(** The bytes an ampersand that begins no reference takes along. *)
Definition namey (c : ascii) : Prop := name_or_high c = true \/ c = "#"%char \/ c = ";"%char.

Lemma namey_special c : namey c -> ~ In c ["<"; "&"; "]"; ">"; "'"; chr 34; cr; nl]%char.
Proof.
  intros H Hin. cbn [In] in Hin. decompose [or] Hin; subst; try contradiction; (destruct H as [H|[H|H]]; discriminate H).
Qed.

Lemma digit_namey c : is_digit c = true -> namey c.
Proof. intros H. left. unfold name_or_high, name_byte. rewrite H, !orb_true_r. reflexivity. Qed.

Lemma hex_namey c : is_hex c = true -> namey c.
Proof.
  intros H. unfold is_hex in H. apply orb_true_iff in H as [H|H]; [apply orb_true_iff in H as [H|H]|].
  - apply digit_namey, H.
  - left. unfold name_or_high, name_byte, name_first. assert (is_lower c = true) as ->; [|rewrite !orb_true_r; reflexivity].
    unfold is_lower, between in *. apply andb_true_iff in H as [H1 H2]. apply N.leb_le in H1, H2. apply andb_true_iff. split; apply N.leb_le; lia.
  - left. unfold name_or_high, name_byte, name_first. assert (is_upper c = true) as ->; [|reflexivity].
    unfold is_upper, between in *. apply andb_true_iff in H as [H1 H2]. apply N.leb_le in H1, H2. apply andb_true_iff. split; apply N.leb_le; lia.
Qed.

Lemma forall_namey (p : ascii -> bool) x : (forall c, p c = true -> namey c) -> Forall (fun c => p c = true) x -> Forall namey x.
Proof. intros H. apply Forall_impl. exact H. Qed.

Lemma namey_semi x : Forall namey x -> Forall namey (x ++ bs ";").
Proof. intros H. apply Forall_app. split; [exact H|]. constructor; [right; right; reflexivity | constructor]. Qed.

Lemma namey_hash x : Forall namey x -> Forall namey ("#"%char :: x).
Proof. constructor; [right; left; reflexivity | assumption]. Qed.

Lemma namey_x x : Forall namey x -> Forall namey ("x"%char :: x).
Proof. constructor; [left; reflexivity | assumption]. Qed.

Lemma null_nil {A} (l : list A) : null l = true -> l = [].
Proof. destruct l; [reflexivity | discriminate]. Qed.

(** What the part after an ampersand is: a reference, or nothing special. *)
Lemma entity_loose s : match entity false s with
  | None => Forall namey s
  | Some (t, r) => entity true s = Some (t, r) \/
      (entity true s = None /\ exists x, t = "&"%char :: x /\ s = x ++ r /\ Forall namey x)
  end.
Proof.
  unfold entity. cbv beta iota zeta. destruct (after (bs "#") s) as [s1|] eqn:E1.
  - apply after_some in E1. subst s. destruct (has_prefix (bs "x") s1) eqn:Ex.
    + apply has_prefix_spec in Ex as [s2 ->]. change (tl (bs "x" ++ s2)) with s2.
      destruct (span is_hex s2) as [ds rest] eqn:Es. apply span_forall in Es as (-> & Hd & _).
      apply (forall_namey _ _ hex_namey) in Hd.
      destruct (null rest) eqn:En.
      { apply null_nil in En. subst rest. rewrite app_nil_r. apply namey_hash, namey_x, Hd. }
      destruct (after (bs ";") rest) as [rest'|] eqn:E2.
      * apply after_some in E2. subst rest. destruct (char_ref true ds) as [u|]; [left; reflexivity|]. right. split; [reflexivity|].
        exists (bs "#x" ++ ds ++ bs ";"). split; [reflexivity|]. split; [cbn; rewrite <- ?app_assoc; reflexivity|].
        apply namey_hash, namey_x, namey_semi, Hd.
      * right. split; [reflexivity|]. exists (bs "#x" ++ ds). split; [reflexivity|]. split; [reflexivity|]. apply namey_hash, namey_x, Hd.
    + destruct (span is_digit s1) as [ds rest] eqn:Es. apply span_forall in Es as (-> & Hd & _).
      apply (forall_namey _ _ digit_namey) in Hd.
      destruct (null rest) eqn:En.
      { apply null_nil in En. subst rest. rewrite app_nil_r. apply namey_hash, Hd. }
      destruct (after (bs ";") rest) as [rest'|] eqn:E2.
      * apply after_some in E2. subst rest. destruct (char_ref false ds) as [u|]; [left; reflexivity|]. right. split; [reflexivity|].
        exists (bs "#" ++ ds ++ bs ";"). split; [reflexivity|]. split; [cbn; rewrite <- ?app_assoc; reflexivity|].
        apply namey_hash, namey_semi, Hd.
      * right. split; [reflexivity|]. exists (bs "#" ++ ds). split; [reflexivity|]. split; [reflexivity|]. apply namey_hash, Hd.
  - destruct (span name_or_high s) as [nm rest] eqn:Es. apply span_forall in Es as (-> & Hd & _).
    assert (Hn : Forall namey nm) by (eapply Forall_impl; [|exact Hd]; intros c Hc; left; exact Hc).
    destruct (null rest) eqn:En.
    { apply null_nil in En. subst rest. rewrite app_nil_r. exact Hn. }
    destruct (after (bs ";") rest) as [rest'|] eqn:E2.
    * apply after_some in E2. subst rest. destruct (named_entity nm) as [u|]; [left; reflexivity|]. right. split; [reflexivity|].
      exists (nm ++ bs ";"). split; [reflexivity|]. split; [rewrite <- app_assoc; reflexivity|]. apply namey_semi, Hn.
    * right. split; [reflexivity|]. exists nm. auto.
Qed.

Lemma no_reference s : entity true s = None -> forall r u x, "&"%char :: s = r ++ x -> ~ reference r u.
Proof.
  intros H r u x E Hr. destruct (entity_complete r u x Hr) as (y & -> & Ee). cbn [app] in E. injection E as ->. congruence.
Qed.

(** ** The loop over text *)

Definition goes_on (b : ascii) (raw m : str) : Prop :=
  (b <> cr /\ loose raw m) \/
  (b = cr /\ ((exists raw', raw = nl :: raw' /\ loose raw' m) \/ ((forall r, raw <> nl :: r) /\ loose raw m))).

Lemma goes_on_loose b raw m : (forall r, raw <> nl :: r) -> loose raw m -> goes_on b raw m.
Proof. intros H1 H2. destruct (Ascii.ascii_dec b cr) as [E|E]; [right | left]; auto. Qed.

Lemma goes_on_other b raw m : b <> cr -> goes_on b raw m -> loose raw m.
Proof. intros H [[_ H1]|[H1 _]]; [exact H1 | congruence]. Qed.

Lemma goes_on_cr raw m : goes_on cr raw m -> loose (cr :: raw) (nl :: m).
Proof.
  intros [[H _]|[_ [(raw' & -> & H)|[H1 H2]]]]; [congruence | apply loose_crlf; exact H | apply loose_cr; auto].
Qed.

Lemma goes_on_byte b b1 raw m acc : plain_byte b -> goes_on b raw m ->
  exists m', goes_on b1 (b :: raw) m' /\
    rev acc ++ m' = rev (if Ascii.eqb b cr then nl :: acc else if Ascii.eqb b1 cr && Ascii.eqb b nl then acc else b :: acc) ++ m.
Proof.
  intros [Hl Ha] Hc. destruct (Ascii.eqb b cr) eqn:E1.
  - apply Ascii.eqb_eq in E1. subst b. exists (nl :: m). split.
    + apply goes_on_loose; [intros r; discriminate | apply goes_on_cr, Hc].
    + cbn [rev]. rewrite <- app_assoc. reflexivity.
  - apply Ascii.eqb_neq in E1. apply goes_on_other in Hc; [|exact E1].
    destruct (Ascii.eqb b1 cr && Ascii.eqb b nl) eqn:E2.
    + apply andb_true_iff in E2 as [E2 E3]. apply Ascii.eqb_eq in E2, E3. subst b1 b. exists m. split; [|reflexivity].
      right. split; [reflexivity|]. left. eauto.
    + exists (b :: m). split.
      * destruct (Ascii.ascii_dec b1 cr) as [->|H1].
        -- rewrite Ascii.eqb_refl in E2. cbn [andb] in E2. apply Ascii.eqb_neq in E2.
           right. split; [reflexivity|]. right. split; [intros r; congruence|]. apply loose_byte; auto.
        -- left. split; [exact H1|]. apply loose_byte; auto.
      * cbn [rev]. rewrite <- app_assoc. reflexivity.
Qed.

Lemma loose_namey x raw m : Forall namey x -> loose raw m -> loose (x ++ raw) (x ++ m).
Proof.
  intros H Hl. induction H as [|c x Hc H IH]; [exact Hl|]. cbn [app]. pose proof (namey_special c Hc) as Hs. cbn [In] in Hs.
  apply loose_byte; auto; intros ->; tauto.
Qed.

Lemma namey_harmless x : Forall namey x -> Forall harmless x.
Proof.
  apply Forall_impl. intros c Hc. pose proof (namey_special c Hc) as Hs. cbn [In] in Hs. split; intros ->; tauto.
Qed.

Lemma loose_loop_sound fuel q : is_quote q -> forall b0 b1 acc s t r,
  text_loop fuel false q false b0 b1 acc s = Some (t, r) ->
  exists raw m, t = rev acc ++ m /\ goes_on b1 raw m /\ ~ occurs cdend (b0 :: b1 :: raw) /\
    match q with
    | None => s = raw ++ r /\ (forall c r', r = c :: r' -> c = "<"%char)
    | Some c => ~ In c raw /\ (s = raw ++ c :: r \/ (s = raw /\ r = []))
    end.
Proof.
  intros Hq. induction fuel as [|fuel IH]; intros b0 b1 acc s t r H; [discriminate|]. cbn [text_loop] in H.
  assert (Hnil : forall t', t' = rev acc -> exists m, t' = rev acc ++ m /\ goes_on b1 [] m /\ ~ occurs cdend [b0; b1]).
  { intros t' ->. exists []. rewrite app_nil_r. split; [reflexivity|]. split; [|apply cdend_two].
    apply goes_on_loose; [intros r'; discriminate | constructor]. }
  destruct s as [|b s].
  { injection H as <- <-. destruct (Hnil _ eq_refl) as (m & H1 & H2 & H3). exists [], m. repeat (split; [assumption|]).
    destruct q; [split; [intros [] | auto] | split; [reflexivity | discriminate]]. }
  destruct (Ascii.eqb b0 "]" && Ascii.eqb b1 "]" && Ascii.eqb b ">") eqn:E0; [discriminate|].
  rewrite !andb_true_r in H. destruct (Ascii.eqb b "<") eqn:E1.
  { destruct q; [discriminate|]. injection H as <- <-. apply Ascii.eqb_eq in E1. subst b.
    destruct (Hnil _ eq_refl) as (m & H1 & H2 & H3). exists [], m. repeat (split; [assumption|]). split; [reflexivity|].
    intros c r' [= <- _]. reflexivity. }
  destruct (match q with Some q0 => Ascii.eqb b q0 | None => false end) eqn:E2.
  { destruct q as [c|]; [|discriminate]. injection H as <- <-. apply Ascii.eqb_eq in E2. subst c.
    destruct (Hnil _ eq_refl) as (m & H1 & H2 & H3). exists [], m. repeat (split; [assumption|]). split; [intros [] | auto]. }
  destruct (Ascii.eqb b "&") eqn:E3.
  - apply Ascii.eqb_eq in E3. subst b. destruct (entity false s) as [[u rest]|] eqn:Ee; [|discriminate].
    pose proof (entity_loose s) as Hl. rewrite Ee in Hl.
    apply IH in H as (raw & m & -> & Hc & Ho & Hs). apply goes_on_other in Hc; [|discriminate].
    (* the bytes of the reference, or of what only looks like one *)
    assert (Hx : exists x, s = x ++ rest /\ Forall harmless ("&"%char :: x) /\
      (forall c, c = "'"%char \/ c = chr 34 -> ~ In c ("&"%char :: x)) /\
      ((forall y, rest = raw ++ y -> loose (("&"%char :: x) ++ raw) (u ++ m)))).
    { destruct Hl as [Et|(Et & x & -> & -> & Hx)].
      - destruct (entity_sound _ _ _ Et) as (x & Hr & ->). pose proof (reference_inert _ _ Hr) as Hin. exists x. split; [reflexivity|].
        split; [eapply Forall_impl; [|exact Hin]; intros c [Hc' _]; exact Hc'|]. split; [|intros y _; apply loose_reference; assumption].
        intros c Hcq Hi. rewrite Forall_forall in Hin. destruct (Hin c Hi) as (_ & H1 & H2 & _). destruct Hcq; congruence.
      - exists x. split; [reflexivity|]. split; [constructor; [split; discriminate | apply namey_harmless, Hx]|]. split.
        + intros c Hcq [Hi|Hi]; [destruct Hcq as [-> | ->]; discriminate|]. rewrite Forall_forall in Hx. apply Hx, namey_special in Hi.
          cbn [In] in Hi. destruct Hcq as [-> | ->]; tauto.
        + intros y ->. cbn [app]. apply loose_ampersand; [|apply loose_namey; assumption].
          intros r' u' z E. apply (no_reference _ Et r' u' (z ++ y)). rewrite (app_assoc r'), <- E. cbn [app]. rewrite <- app_assoc. reflexivity. }
    destruct Hx as (x & -> & Hharm & Hnq & Hloose).
    assert (Hrest : exists y, rest = raw ++ y).
    { destruct q as [c|]; [destruct Hs as [_ [-> | [-> _]]]; [eauto | exists []; rewrite app_nil_r; reflexivity]|]. destruct Hs as [-> _]. eauto. }
    destruct Hrest as [y Ey]. specialize (Hloose y Ey).
    exists (("&"%char :: x) ++ raw), (u ++ m). split; [rewrite rev_app_distr, rev_involutive, <- app_assoc; reflexivity|].
    split; [|split].
    + apply goes_on_loose; [intros r'; discriminate|exact Hloose].
    + cbn [app]. rewrite cdend_after by exact (Forall_inv Hharm). rewrite cdend_skip by exact (Forall_inv_tail Hharm).
      rewrite <- cdend_zero. exact Ho.
    + destruct q as [c|].
      * destruct Hs as [Hni Hs]. split.
        -- rewrite in_app_iff. intros [Hc'|Hc']; [|tauto]. apply (Hnq c); [apply Hq; reflexivity | exact Hc'].
        -- destruct Hs as [->|[-> ->]]; [left | right; split; [|reflexivity]]; cbn [app]; rewrite ?app_assoc; reflexivity.
      * destruct Hs as [-> Hs]. split; [cbn [app]; rewrite app_assoc; reflexivity | exact Hs].
  - apply IH in H as (raw & m & -> & Hc & Ho & Hs). apply Ascii.eqb_neq in E1, E3.
    destruct (goes_on_byte b b1 raw m acc (conj E1 E3) Hc) as (m' & Hc' & Em).
    exists (b :: raw), m'. split; [rewrite Em; reflexivity|]. split; [exact Hc'|]. split.
    + rewrite cdend_step. intros [(-> & -> & ->)|H]; [discriminate | tauto].
    + destruct q as [c|].
      * destruct Hs as [Hni Hs]. split.
        -- intros [->|H]; [rewrite Ascii.eqb_refl in E2; discriminate | tauto].
        -- destruct Hs as [->|[-> ->]]; [left | right]; auto.
      * destruct Hs as [-> Hs]. auto.
Qed.

(** What follows the text: '<' or the quote it is in. *)
Definition stops (q : option ascii) (raw tail r : str) : Prop :=
  match q with
  | None => (exists y, tail = "<"%char :: y) /\ r = tail
  | Some c => tail = c :: r /\ ~ In c raw /\ (c = "'"%char \/ c = chr 34)
  end.

Lemma stops_less q a raw tail r : stops q (a ++ raw) tail r -> stops q raw tail r.
Proof. destruct q; [|auto]. intros (-> & Hn & Hq). repeat split; auto. intros H. apply Hn, in_app_iff. auto. Qed.

Lemma stops_first q raw tail r : stops q raw tail r -> exists c y, tail = c :: y /\ (c = "<"%char \/ c = "'"%char \/ c = chr 34).
Proof. destruct q as [c|]; [intros (-> & _ & [-> | ->])|intros [(y & ->) ->]]; eauto 8. Qed.

Lemma namey_prefix x r raw tail : Forall namey x -> (exists c y, tail = c :: y /\ ~ namey c) -> raw ++ tail = x ++ r ->
  exists raw', raw = x ++ raw' /\ r = raw' ++ tail.
Proof.
  intros Hx (c & y & -> & Hc). revert x r Hx. induction raw as [|d raw IH]; intros x r Hx E.
  - destruct x as [|d x]; [exists []; auto|]. cbn [app] in E. injection E as -> _. contradiction (Hc (Forall_inv Hx)).
  - destruct x as [|d' x]; [exists (d :: raw); cbn [app] in *; auto|]. cbn [app] in E. injection E as -> E.
    destruct (IH x r (Forall_inv_tail Hx) E) as (raw' & -> & ->). exists raw'. auto.
Qed.

Lemma not_namey c : c = "<"%char \/ c = "'"%char \/ c = chr 34 -> ~ namey c.
Proof. intros H Hn. apply namey_special in Hn. cbn [In] in Hn. decompose [or] H; subst; tauto. Qed.

Lemma reference_prefix_inside x r raw tail : Forall inert x -> (exists c y, tail = c :: y /\ (c = "<"%char \/ c = "'"%char \/ c = chr 34)) ->
  raw ++ tail = x ++ r -> exists raw', raw = x ++ raw'.
Proof.
  intros Hx (c & y & -> & Hc). revert x r Hx. induction raw as [|d raw IH]; intros x r Hx E.
  - destruct x as [|d x]; [exists []; auto|]. cbn [app] in E. injection E as -> _. exfalso.
    destruct (Forall_inv Hx) as (_ & H1 & H2 & H3). decompose [or] Hc; congruence.
  - destruct x as [|d' x]; [exists (d :: raw); auto|]. cbn [app] in E. injection E as -> E.
    destruct (IH x r (Forall_inv_tail Hx) E) as (raw' & ->). exists raw'. auto.
Qed.

Lemma loose_namey_inv x raw m : Forall namey x -> loose (x ++ raw) m -> exists m', m = x ++ m' /\ loose raw m'.
Proof.
  intros Hx. revert m. induction Hx as [|c x Hc Hx IH]; intros m H; [exists m; auto|]. cbn [app] in H.
  pose proof (namey_special c Hc) as Hs. cbn [In] in Hs.
  inversion H; subst; try (change return_ with cr in *; tauto).
  - destruct (IH _ H6) as (m' & -> & Hm). exists m'. auto.
  - destruct (reference_amp_first _ _ H1) as [y ->]. injection H0 as <- _. tauto.
Qed.

Lemma loose_loop_complete : forall n raw m, length raw <= n -> loose raw m ->
  forall q tail r, stops q raw tail r ->
  forall fuel b0 b1 acc, (b1 = cr -> forall r', raw <> nl :: r') -> ~ occurs cdend (b0 :: b1 :: raw) -> length (raw ++ tail) < fuel ->
  text_loop fuel false q false b0 b1 acc (raw ++ tail) = Some (rev acc ++ m, r).
Proof.
  assert (Hstep : forall c q tail rest fuel b0 b1 acc,
    match q with None => True | Some q => c <> q end -> plain_byte c -> ~ occurs cdend (b0 :: b1 :: c :: rest) ->
    text_loop (S fuel) false q false b0 b1 acc (c :: rest ++ tail) =
    text_loop fuel false q false b1 c
      (if Ascii.eqb c cr then nl :: acc else if Ascii.eqb b1 cr && Ascii.eqb c nl then acc else c :: acc) (rest ++ tail)).
  { intros c q tail rest fuel b0 b1 acc Hq [Hp1 Hp2] Ho. cbn [text_loop]. rewrite cdend_step in Ho.
    destruct (Ascii.eqb b0 "]" && Ascii.eqb b1 "]" && Ascii.eqb c ">") eqn:E.
    { exfalso. apply Ho. left. apply andb_true_iff in E as [E E3]. apply andb_true_iff in E as [E1 E2].
      apply Ascii.eqb_eq in E1, E2, E3. auto. }
    apply Ascii.eqb_neq in Hp1, Hp2. rewrite Hp1, Hp2. cbn [andb].
    assert (Eq : (match q with Some q0 => Ascii.eqb c q0 | None => false end) = false)
      by (destruct q; [apply Ascii.eqb_neq; exact Hq | reflexivity]).
    rewrite Eq. reflexivity. }
  induction n as [|n IH]; intros raw m Hn H q tail r Ht fuel b0 b1 acc Hb Ho Hf.
  { destruct raw; [|cbn in Hn; lia]. assert (m = []) as ->.
    { inversion H as [| | | |x u raw' m' Hx _ E|]; [reflexivity|]. destruct (reference_amp_first _ _ Hx) as [y ->]. discriminate. }
    cbn [app] in *. rewrite app_nil_r. destruct fuel as [|fuel]; [lia|]. cbn [text_loop]. destruct q as [q|].
    - destruct Ht as (-> & _ & Hq).
      rewrite (proj2 (Ascii.eqb_neq q ">")) by (destruct Hq as [-> | ->]; discriminate).
      rewrite (proj2 (Ascii.eqb_neq q "<")) by (destruct Hq as [-> | ->]; discriminate).
      rewrite andb_false_r, Ascii.eqb_refl. reflexivity.
    - destruct Ht as [(y & ->) ->]. change (Ascii.eqb "<" ">") with false. rewrite andb_false_r. reflexivity. }
  assert (Hret : forall c, c = cr \/ c = nl -> match q with None => True | Some q => c <> q end).
  { intros c Hc. destruct q as [q|]; [|exact I]. destruct Ht as (_ & _ & Hq). destruct Hc as [-> | ->], Hq as [-> | ->]; discriminate. }
  assert (Hcr : plain_byte cr) by (split; discriminate). assert (Hnl : plain_byte nl) by (split; discriminate).
  (* an ampersand *)
  assert (Hamp : forall u x raw', raw = ("&"%char :: x) ++ raw' -> entity false (x ++ raw' ++ tail) = Some (u, raw' ++ tail) ->
    Forall harmless ("&"%char :: x) -> forall m', loose raw' m' -> m = u ++ m' ->
    text_loop fuel false q false b0 b1 acc (raw ++ tail) = Some (rev acc ++ m, r)).
  { intros u x raw' -> Ee Hharm m' Hm' ->.
    destruct fuel as [|fuel]; [lia|]. rewrite <- app_assoc. cbn [app text_loop].
    change (Ascii.eqb "&" ">") with false. rewrite andb_false_r. change (Ascii.eqb "&" "<") with false. cbn [andb].
    assert (Eq : (match q with Some q0 => Ascii.eqb "&" q0 | None => false end) = false).
    { destruct q as [q|]; [|reflexivity]. destruct Ht as (_ & _ & [-> | ->]); reflexivity. }
    rewrite Eq. change (Ascii.eqb "&" "&") with true. cbn [negb andb]. rewrite Ee.
    rewrite (IH raw' m') with (r := r); auto.
    - rewrite rev_app_distr, rev_involutive, <- app_assoc. reflexivity.
    - cbn [app length] in Hn. rewrite app_length in Hn. lia.
    - apply (stops_less q ("&"%char :: x)). exact Ht.
    - discriminate.
    - cbn [app] in Ho. rewrite cdend_after in Ho by exact (Forall_inv Hharm). rewrite cdend_skip in Ho by exact (Forall_inv_tail Hharm).
      rewrite cdend_zero. exact Ho.
    - rewrite !app_length in *. cbn [length] in Hf. lia. }
  inversion H as [E1 E2|raw' m' H' E1 E2|raw' m' Hr H' E1 E2|c raw' m' Hc Hc1 Hc2 H' E1 E2|x u raw' m' Hx H' E1 E2|raw' m' Hno H' E1 E2];
    rewrite <- E1 in *; rewrite <- E2 in *; clear E1 E2.
  - apply (IH [] []); auto; cbn; lia.
  - cbn [app length] in Hf, Hn |- *. destruct fuel as [|[|fuel]]; try (rewrite ?app_length in Hf; cbn in Hf; lia).
    change (return_ :: lf :: raw' ++ tail) with (cr :: (nl :: raw') ++ tail). change (return_ :: lf :: raw') with (cr :: nl :: raw') in Ho.
    assert (Ho1 : ~ occurs cdend (b1 :: cr :: nl :: raw')) by (rewrite cdend_step in Ho; tauto).
    assert (Ho2 : ~ occurs cdend (cr :: nl :: raw')) by (rewrite cdend_step in Ho1; tauto).
    rewrite (Hstep cr q tail (nl :: raw') (S fuel) b0 b1 acc (Hret cr (or_introl eq_refl)) Hcr Ho). cbn [app].
    rewrite (Hstep nl q tail raw' fuel b1 cr _ (Hret nl (or_intror eq_refl)) Hnl Ho1).
    change (Ascii.eqb cr cr) with true. change (Ascii.eqb nl cr) with false. change (Ascii.eqb nl nl) with true. cbn [andb].
    rewrite (IH raw' m') with (r := r); auto.
    + cbn [rev]. rewrite <- app_assoc. reflexivity.
    + lia.
    + apply (stops_less q [return_; lf]), Ht.
    + discriminate.
    + lia.
  - cbn [app length] in Hf, Hn |- *. destruct fuel as [|fuel]; [lia|].
    change return_ with cr in *.
    rewrite (Hstep cr q tail raw' fuel b0 b1 acc (Hret cr (or_introl eq_refl)) Hcr Ho). change (Ascii.eqb cr cr) with true. cbv iota.
    rewrite (IH raw' m') with (r := r); auto.
    + cbn [rev]. rewrite <- app_assoc. reflexivity.
    + lia.
    + apply (stops_less q [cr]), Ht.
    + rewrite cdend_step in Ho. tauto.
    + lia.
  - cbn [app length] in Hf, Hn |- *. destruct fuel as [|fuel]; [lia|]. rewrite Hstep; auto.
    + apply Ascii.eqb_neq in Hc. change return_ with cr in Hc. rewrite Hc.
      assert (E : Ascii.eqb b1 cr && Ascii.eqb c nl = false).
      { destruct (Ascii.eqb b1 cr) eqn:E1; [|reflexivity]. apply Ascii.eqb_eq in E1. specialize (Hb E1 raw').
        apply Ascii.eqb_neq. congruence. }
      rewrite E, (IH raw' m') with (r := r); auto.
      * cbn [rev]. rewrite <- app_assoc. reflexivity.
      * lia.
      * apply (stops_less q [c]), Ht.
      * apply Ascii.eqb_neq in Hc. congruence.
      * rewrite cdend_step in Ho. tauto.
      * lia.
    + destruct q as [q|]; [|exact I]. destruct Ht as (_ & Ht & _). intros ->. apply Ht. left. reflexivity.
    + split; assumption.
  - destruct (entity_complete x u (raw' ++ tail) Hx) as (y & -> & Ee).
    pose proof (reference_inert _ _ Hx) as Hin. apply (Hamp u y raw' eq_refl) with (m' := m'); auto.
    + pose proof (entity_loose (y ++ raw' ++ tail)) as Hl. destruct (entity false (y ++ raw' ++ tail)) as [[t' r']|].
      * destruct Hl as [El|[El _]]; congruence.
      * exfalso. destruct (stops_first _ _ _ _ Ht) as (c & z & -> & Hc). rewrite Forall_forall in Hl.
        apply (not_namey c Hc), Hl. rewrite !in_app_iff. right. right. left. reflexivity.
    + eapply Forall_impl; [|exact Hin]. intros c [Hc' _]. exact Hc'.
  - destruct (stops_first _ _ _ _ Ht) as (c & z & Etail & Hc).
    pose proof (entity_loose (raw' ++ tail)) as Hl. destruct (entity false (raw' ++ tail)) as [[t' r']|] eqn:Ee.
    + destruct Hl as [El|(El & x & -> & Ex & Hx)].
      * exfalso. destruct (entity_sound _ _ _ El) as (x & Hr & Ex).
        destruct (reference_prefix_inside x r' raw' tail) as (raw2 & E2); [exact (Forall_inv_tail (reference_inert _ _ Hr))|eauto|exact Ex|].
        apply (Hno ("&"%char :: x) t' raw2); [|exact Hr]. rewrite E2. reflexivity.
      * destruct (namey_prefix x r' raw' tail Hx) as (raw2 & E2 & Er); [exists c, z; split; [exact Etail | apply not_namey, Hc]|exact Ex|].
        subst r' raw'. destruct (loose_namey_inv x raw2 m' Hx H') as (m2 & -> & Hm2).
        apply (Hamp ("&"%char :: x) x raw2 eq_refl) with (m' := m2); auto.
        -- rewrite <- app_assoc in Ee. exact Ee.
        -- constructor; [split; discriminate | apply namey_harmless, Hx].
    + exfalso. rewrite Forall_forall in Hl. apply (not_namey c Hc), Hl. rewrite Etail, in_app_iff. right. left. reflexivity.
Qed.

Theorem loose_text_sound s t r : read_text false None false s = Some (t, r) ->
  exists raw, s = raw ++ r /\ loose_text t raw /\ forall c r', r = c :: r' -> c = "<"%char.
Proof.
  unfold read_text. destruct (text_loop (S (length s)) false None false (chr 0) (chr 0) [] s) as [[t0 r0]|] eqn:E; [|discriminate].
  cbn [bind fst]. destruct (xml_text t0) eqn:Ex; [|discriminate]. intros [= -> ->].
  apply loose_loop_sound in E; [|discriminate]. destruct E as (raw & m & -> & Hc & Ho & -> & Hr).
  exists raw. split; [reflexivity|]. split; [|exact Hr]. cbn [rev app] in *.
  split; [|split].
  - apply goes_on_other in Hc; [exact Hc | discriminate].
  - rewrite cdend_zero in Ho. exact Ho.
  - apply xml_text_iff, Ex.
Qed.

Theorem loose_text_complete t raw y : loose_text t raw ->
  read_text false None false (raw ++ "<"%char :: y) = Some (t, "<"%char :: y).
Proof.
  intros (Hl & Ho & Hx). unfold read_text.
  rewrite (loose_loop_complete _ raw t (le_n _) Hl None ("<"%char :: y) ("<"%char :: y)).
  - cbn [bind fst rev app]. apply xml_text_iff in Hx. rewrite Hx. reflexivity.
  - split; eauto.
  - discriminate.
  - rewrite cdend_zero. exact Ho.
  - lia.
Qed.

Theorem loose_quoted_sound q s t r : q = "'"%char \/ q = chr 34 -> read_text false (Some q) false s = Some (t, r) ->
  exists raw, loose_text t raw /\ ~ In q raw /\ (s = raw ++ q :: r \/ r = []).
Proof.
  intros Hq. unfold read_text. destruct (text_loop (S (length s)) false (Some q) false (chr 0) (chr 0) [] s) as [[t0 r0]|] eqn:E; [|discriminate].
  cbn [bind fst]. destruct (xml_text t0) eqn:Ex; [|discriminate]. intros [= -> ->].
  apply loose_loop_sound in E; [|intros c [= <-]; exact Hq]. destruct E as (raw & m & -> & Hc & Ho & Hn & Hs).
  exists raw. cbn [rev app] in *. split; [split; [|split]|split; [exact Hn | tauto]].
  - apply goes_on_other in Hc; [exact Hc | discriminate].
  - rewrite cdend_zero in Ho. exact Ho.
  - apply xml_text_iff, Ex.
Qed.

Theorem loose_quoted_complete q t raw r : q = "'"%char \/ q = chr 34 -> loose_text t raw -> ~ In q raw ->
  read_text false (Some q) false (raw ++ q :: r) = Some (t, r).
Proof.
  intros Hq (Hl & Ho & Hx) Hn. unfold read_text.
  rewrite (loose_loop_complete _ raw t (le_n _) Hl (Some q) (q :: r) r).
  - cbn [bind fst rev app]. apply xml_text_iff in Hx. rewrite Hx. reflexivity.
  - repeat split; auto.
  - discriminate.
  - rewrite cdend_zero. exact Ho.
  - lia.
Qed.

(** CDATA sections are the same. *)
Lemma cdata_loop_loose fuel : forall b0 b1 acc s, text_loop fuel false None true b0 b1 acc s = text_loop fuel true None true b0 b1 acc s.
Proof.
  induction fuel as [|fuel IH]; intros b0 b1 acc s; [reflexivity|]. cbn [text_loop]. destruct s as [|b s]; [reflexivity|].
  rewrite !andb_false_r. destruct (_ && _ && _); [reflexivity|]. apply IH.
Qed.

Lemma read_cdata_loose s : read_text false None true s = read_text true None true s.
Proof. unfold read_text. rewrite cdata_loop_loose. reflexivity. Qed.
