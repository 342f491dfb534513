(** SGML documents: the reader follows the grammar, in both directions. *)
From Coq Require Import QArith Lia Bool List.
From Verif Require Import GoStr GoStrFacts SpecStr GoTime Types Enums EnumTables Records Common Messages Codec Schema Document
  Utf8 Xml LexFacts ExtendFacts SpecXml XmlFacts SpellFacts Headers SpecHeader HeaderFacts WrittenHeaderFacts Leaves Wire
  SpecMarkup SpecSgml MarkupText MarkupTags MarkupDocs SgmlText SgmlTags.
Close Scope Q_scope.

Scheme sgml_mut := Minimality for sgml Sort Prop
  with sgmls_mut := Minimality for sgmls Sort Prop.
Combined Scheme sgml_both from sgml_mut, sgmls_mut.

Notation L := ofx_leaf_elements.

(** ** Names of simple elements *)

Lemma member_in nm l : member nm l = true <-> In nm l.
Proof.
  unfold member. rewrite existsb_exists. split.
  - intros (x & Hx & E). apply str_eqb_eq in E. subst x. exact Hx.
  - intros H. exists nm. split; [exact H | apply str_eqb_refl].
Qed.

Lemma upper_letter c l : is_lower l = false -> (upper c = l <-> letter_of c l).
Proof.
  intros Hl. unfold upper, letter_of. destruct (is_lower c) eqn:Ec.
  - unfold is_lower, between in Ec. apply andb_true_iff in Ec as [H1 H2]. apply N.leb_le in H1, H2. split.
    + intros <-. right. rewrite code_chr by lia. lia.
    + intros [->|[H3 H4]]; [|rewrite H4, N.add_sub; apply chr_code].
      exfalso. unfold is_lower, between in Hl. apply andb_false_iff in Hl as [Hl|Hl]; apply N.leb_gt in Hl; lia.
  - split; [auto|]. intros [E|[H3 H4]]; [exact E|]. exfalso. unfold is_lower, between in Ec.
    apply andb_false_iff in Ec as [E|E]; apply N.leb_gt in E; lia.
Qed.

Lemma upper_letters nm : forall l, forallb (fun c => negb (is_lower c)) l = true -> (map upper nm = l <-> Forall2 letter_of nm l).
Proof.
  induction nm as [|c nm IH]; intros l Hl.
  - split; [intros <-; constructor | intros H; inversion H; reflexivity].
  - destruct l as [|d l]; [split; [discriminate | intros H; inversion H]|]. cbn [forallb] in Hl. apply andb_true_iff in Hl as [H1 H2].
    apply negb_true_iff in H1. cbn [map]. split.
    + intros [= E1 E2]. constructor; [apply upper_letter; assumption | apply IH; assumption].
    + intros H. inversion H; subst. f_equal; [apply upper_letter; assumption | apply IH; assumption].
Qed.

Lemma leaves_upper : forallb (forallb (fun c => negb (is_lower c))) L = true.
Proof. vm_compute. reflexivity. Qed.

Lemma simple_iff nm : fold_member nm L = true <-> simple_name nm.
Proof.
  unfold fold_member. rewrite member_in. pose proof leaves_upper as H. rewrite forallb_forall in H. unfold simple_name. split.
  - intros Hin. exists (map upper nm). split; [exact Hin|]. apply (upper_letters nm _ (H _ Hin)). reflexivity.
  - intros (l & Hin & Hl). apply (upper_letters nm _ (H _ Hin)) in Hl. rewrite Hl. exact Hin.
Qed.

Lemma simple_false nm : ~ simple_name nm -> fold_member nm L = false.
Proof. intros H. destruct (fold_member nm L) eqn:E; [|reflexivity]. apply simple_iff in E. contradiction. Qed.

Lemma ofx_not_simple : ~ simple_name (bs "OFX").
Proof. rewrite <- simple_iff. vm_compute. discriminate. Qed.

(** ** Pieces *)

Inductive bit : list token -> str -> str -> Prop :=
| bit_start nm sp lo a s : xml_name nm -> qualified nm sp lo -> loose_rest a ->
    bit [TStart sp lo] (bs "<" ++ nm ++ a ++ bs ">") s
| bit_empty nm sp lo a s : xml_name nm -> qualified nm sp lo -> loose_rest a ->
    bit [TStart sp lo; TEnd sp lo] (bs "<" ++ nm ++ a ++ bs "/>") s
| bit_end nm sp lo w s : xml_name nm -> qualified nm sp lo -> xml_ws w ->
    bit [TEnd sp lo] (bs "</" ++ nm ++ w ++ bs ">") s
| bit_text t raw y : raw <> [] -> loose_text t raw -> bit [TChar t] raw ("<"%char :: y)
| bit_cdata t raw s : cdata_spells t raw -> bit [TChar t] (bs "<![CDATA[" ++ raw ++ bs "]]>") s
| bit_comment c s : ~ occurs (bs "--") (c ++ bs "-") -> bit [TMisc] (bs "<!--" ++ c ++ bs "-->") s
| bit_proc nm i s : instruction nm i -> bit [TProc nm (skip_space i)] (bs "<?" ++ nm ++ i ++ bs "?>") s
| bit_directive c d s : c <> "-"%char -> c <> "["%char -> directive 0 d ->
    bit [TMisc] (bs "<!" ++ [c] ++ d ++ bs ">") s.

Lemma read_tag_same s : after (bs "/") s <> None \/ after (bs "?") s <> None \/ after (bs "!") s <> None ->
  read_tag false s = read_tag true s.
Proof.
  unfold read_tag. destruct (after (bs "/") s); [reflexivity|]. destruct (after (bs "?") s); [reflexivity|].
  destruct (after (bs "!") s) as [s1|]; [intros _|intros [H|[H|H]]; congruence].
  destruct (after (bs "-") s1); [reflexivity|]. destruct (after (bs "[") s1) as [s2|]; [|reflexivity].
  unfold read_cdata. destruct (after (bs "CDATA[") s2); [|reflexivity]. cbn [bind]. rewrite read_cdata_loose. reflexivity.
Qed.

Lemma piece_bit c ts raw s r : c = "/"%char \/ c = "?"%char \/ c = "!"%char -> piece ts raw r -> "<"%char :: c :: s = raw ++ r -> bit ts raw r.
Proof.
  intros Hc Hp E.
  assert (Hno : forall c0 r0 x, c :: s = (c0 :: r0) ++ x -> name_start c0 -> False).
  { intros c0 r0 x [= <- _] H. unfold name_start, letter in H. destruct Hc as [-> | [-> | ->]]; vm_compute in H; intuition (discriminate || congruence). }
  inversion Hp; subst; try (constructor; assumption).
  - exfalso. match goal with H : xml_name _ |- _ => destruct H as (c0 & r0 & -> & Hc0 & _) end.
    rewrite <- !app_assoc in E. apply (f_equal (@tl ascii)) in E. cbn [tl app bs] in E. exact (Hno c0 r0 _ E Hc0).
  - exfalso. match goal with H : xml_name _ |- _ => destruct H as (c0 & r0 & -> & Hc0 & _) end.
    rewrite <- !app_assoc in E. apply (f_equal (@tl ascii)) in E. cbn [tl app bs] in E. exact (Hno c0 r0 _ E Hc0).
  - exfalso. match goal with H : text_spells _ _ |- _ => destruct H as [Hlit _] end.
    destruct raw as [|c0 raw]; [congruence|]. cbn [app] in E. injection E as <- _. inversion Hlit; subst; [tauto|].
    match goal with H : reference _ _ |- _ => destruct (reference_amp_first _ _ H) as [? ->] end. discriminate.
Qed.

Lemma read_tag_loose_sound s ts r : read_tag false s = Some (ts, r) -> exists raw, bit ts raw r /\ "<"%char :: s = raw ++ r.
Proof.
  assert (Hsame : forall c s1, c = "/"%char \/ c = "?"%char \/ c = "!"%char -> s = c :: s1 -> read_tag false s = read_tag true s ->
    read_tag false s = Some (ts, r) -> exists raw, bit ts raw r /\ "<"%char :: s = raw ++ r).
  { intros c s1 Hc -> -> H. apply read_tag_sound in H as (raw & Hp & E). exists raw. split; [|exact E]. eapply piece_bit; eauto. }
  destruct (after (bs "/") s) as [s1|] eqn:E1; [|destruct (after (bs "?") s) as [s1|] eqn:E2; [|destruct (after (bs "!") s) as [s1|] eqn:E3]].
  - apply (Hsame "/"%char s1); [auto | exact (after_some _ _ _ E1) | apply read_tag_same; left; congruence].
  - apply (Hsame "?"%char s1); [auto | exact (after_some _ _ _ E2) | apply read_tag_same; right; left; congruence].
  - apply (Hsame "!"%char s1); [auto | exact (after_some _ _ _ E3) | apply read_tag_same; right; right; congruence].
  - unfold read_tag. rewrite E1, E2, E3. unfold read_start_tag. destruct (read_name s) as [[n r0]|] eqn:En; [|discriminate].
  apply read_name_sound in En as (Hn & -> & _ & Hr0). cbn [bind fst snd].
  destruct (attributes (S (length r0)) false r0) as [[e b]|] eqn:Ea; [|discriminate].
  apply loose_attributes_sound in Ea as (a & Ha & E). cbn [bind fst snd]. pose proof (rest_of_loose a e b r0 Ha E Hr0) as Hrest.
  destruct (split_name n) as [sp lo] eqn:Es. apply split_name_iff in Es. intros [= <- <-]. subst r0. destruct e.
    + exists (bs "<" ++ n ++ a ++ bs "/>"). split; [apply bit_empty; auto | rewrite <- !app_assoc; reflexivity].
    + exists (bs "<" ++ n ++ a ++ bs ">"). split; [apply bit_start; auto | rewrite <- !app_assoc; reflexivity].
Qed.

Lemma lex_loose_sound s t ts : lex false s = t :: ts -> (exists w, t :: ts = [TChar w]) \/
  exists ts0 raw s', bit ts0 raw s' /\ s = raw ++ s' /\ t :: ts = ts0 ++ lex false s' /\ length s' < length s.
Proof.
  destruct s as [|c s]; [discriminate|]. rewrite lex_cons. unfold lex_step. destruct (Ascii.eqb c "<") eqn:Ec.
  - apply Ascii.eqb_eq in Ec. subst c. destruct (read_tag false s) as [[ts0 s']|] eqn:E; [|discriminate]. intros H. right.
    pose proof (read_tag_length _ _ _ _ E). apply read_tag_loose_sound in E as (raw & Hp & E).
    exists ts0, raw, s'. split; [exact Hp|]. split; [exact E|]. split; [auto|]. cbn [length]. lia.
  - destruct (read_text false None false (c :: s)) as [[t0 s']|] eqn:E; [|discriminate]. cbn [option_map fst snd]. intros H.
    pose proof (read_text_progress _ _ _ _ _ Ec E) as Hl. apply loose_text_sound in E as (raw & E & Ht & Hs').
    destruct s' as [|d s']; [left; exists t0; rewrite <- H; reflexivity|]. right.
    specialize (Hs' d s' eq_refl). subst d. exists [TChar t0], raw, ("<"%char :: s'). split; [|split; [exact E | split; [auto | exact Hl]]].
    apply bit_text; [|exact Ht]. intros ->. cbn [app] in E. rewrite E in Hl. lia.
Qed.

Lemma read_start_loose nm sp lo a e s : xml_name nm -> qualified nm sp lo -> loose_rest a ->
  read_tag false (nm ++ a ++ tag_close e ++ s) = Some (if e then [TStart sp lo; TEnd sp lo] else [TStart sp lo], s).
Proof.
  intros Hn Hq Ha. destruct (name_no_tag nm (a ++ tag_close e ++ s) Hn) as (E1 & E2 & E3).
  unfold read_tag. rewrite E1, E2, E3. unfold read_start_tag.
  destruct (loose_rest_next a e s Ha) as (c & y & E & Hc). rewrite E, (read_name_complete nm c y Hn Hc). cbn [bind fst snd].
  rewrite <- E. rewrite (loose_attributes_complete a (proj1 Ha)) by (rewrite app_length; lia). cbn [bind fst snd].
  apply split_name_iff in Hq. rewrite Hq. reflexivity.
Qed.

Lemma loose_not_lt c raw t : loose (c :: raw) t -> c <> "<"%char.
Proof.
  intros H ->. inversion H; subst; [tauto|].
  match goal with H : reference _ _ |- _ => destruct (reference_amp_first _ _ H) as [y Ey] end. subst. discriminate.
Qed.

Lemma bit_complete ts raw s : bit ts raw s -> lex false (raw ++ s) = ts ++ lex false s.
Proof.
  destruct 1 as [nm sp lo a s Hn Hq Ha|nm sp lo a s Hn Hq Ha|nm sp lo w s Hn Hq Hw|t raw y Hr Ht|t raw s Ht|c s Hc|nm i s Hi|c d s Hc1 Hc2 Hd].
  - rewrite <- !app_assoc. change (lex false ("<"%char :: (nm ++ a ++ tag_close false ++ s)) = [TStart sp lo] ++ lex false s).
    apply lex_tag. exact (read_start_loose nm sp lo a false s Hn Hq Ha).
  - rewrite <- !app_assoc. change (lex false ("<"%char :: (nm ++ a ++ tag_close true ++ s)) = [TStart sp lo; TEnd sp lo] ++ lex false s).
    apply lex_tag. exact (read_start_loose nm sp lo a true s Hn Hq Ha).
  - rewrite <- !app_assoc. change (lex false ("<"%char :: (bs "/" ++ nm ++ w ++ bs ">" ++ s)) = [TEnd sp lo] ++ lex false s).
    apply lex_tag. unfold read_tag. rewrite after_app. unfold read_end_tag.
    assert (Hnext : exists c y, w ++ bs ">" ++ s = c :: y /\ name_or_high c = false).
    { destruct w as [|c w]; [exists ">"%char, s; auto|]. exists c, (w ++ bs ">" ++ s). split; [reflexivity|].
      apply space_not_name. apply Forall_cons; [|constructor]. inversion Hw; assumption. }
    destruct Hnext as (c & y & E & Hc). rewrite E, (read_name_complete nm c y Hn Hc). cbn [bind fst snd]. rewrite <- E.
    change (bs ">" ++ s) with (">"%char :: s). rewrite skip_space_app by (auto; reflexivity).
    change (">"%char :: s) with (bs ">" ++ s). rewrite after_app. cbn [bind].
    apply split_name_iff in Hq. rewrite Hq. reflexivity.
  - destruct raw as [|c raw]; [congruence|]. cbn [app]. rewrite lex_cons. unfold lex_step.
    assert (Ascii.eqb c "<" = false) as -> by (apply Ascii.eqb_neq; exact (loose_not_lt _ _ _ (proj1 Ht))).
    rewrite (loose_text_complete t (c :: raw) y Ht : read_text false None false (c :: raw ++ "<"%char :: y) = _). reflexivity.
  - rewrite <- !app_assoc. change (lex false ("<"%char :: (bs "![" ++ bs "CDATA[" ++ raw ++ bs "]]>" ++ s)) = [TChar t] ++ lex false s).
    apply lex_tag. unfold read_tag.
    replace (after (bs "/") _) with (@None str) by (symmetry; apply after_none; discriminate).
    replace (after (bs "?") _) with (@None str) by (symmetry; apply after_none; discriminate).
    change (bs "![" ++ ?x) with (bs "!" ++ bs "[" ++ x). rewrite after_app.
    replace (after (bs "-") _) with (@None str) by (symmetry; apply after_none; discriminate).
    rewrite after_app. unfold read_cdata. rewrite after_app. cbn [bind]. rewrite read_cdata_loose.
    pose proof (read_cdata_complete t raw s Ht) as E. change cdend with (bs "]]>") in E. rewrite E. reflexivity.
  - rewrite <- !app_assoc. change (lex false ("<"%char :: (bs "!" ++ bs "-" ++ bs "-" ++ c ++ bs "--" ++ bs ">" ++ s)) = [TMisc] ++ lex false s).
    apply lex_tag. unfold read_tag.
    replace (after (bs "/") _) with (@None str) by (symmetry; apply after_none; discriminate).
    replace (after (bs "?") _) with (@None str) by (symmetry; apply after_none; discriminate).
    rewrite !after_app. unfold read_comment. rewrite after_app. cbn [bind].
    rewrite split2_complete by (discriminate || exact Hc). cbn [bind snd]. rewrite after_app. reflexivity.
  - rewrite <- !app_assoc. change (lex false ("<"%char :: (bs "?" ++ nm ++ i ++ bs "?>" ++ s)) = [TProc nm (skip_space i)] ++ lex false s).
    apply lex_tag. unfold read_tag.
    replace (after (bs "/") _) with (@None str) by (symmetry; apply after_none; discriminate).
    rewrite !after_app. apply read_proc_complete, Hi.
  - rewrite <- !app_assoc. change (lex false ("<"%char :: (bs "!" ++ c :: d ++ bs ">" ++ s)) = [TMisc] ++ lex false s).
    apply lex_tag. unfold read_tag.
    replace (after (bs "/") _) with (@None str) by (symmetry; apply after_none; discriminate).
    replace (after (bs "?") _) with (@None str) by (symmetry; apply after_none; discriminate).
    rewrite !after_app.
    rewrite (after_none (bs "-")) by (intros r E; injection E as E _; congruence).
    rewrite (after_none (bs "[")) by (intros r E; injection E as E _; congruence).
    unfold read_directive. rewrite (directive_complete 0 d s Hd); [reflexivity|]. rewrite !app_length. cbn. lia.
Qed.

(** ** Sound *)

Definition begins (b : str) : Prop := exists r, b = "<"%char :: r.

Lemma begins_app b s : begins b -> begins (b ++ s).
Proof. intros [r ->]. eexists. reflexivity. Qed.

Lemma begins_next b : begins b -> tag_next b.
Proof. intros [r ->] c y [= <- _]. reflexivity. Qed.

Lemma sgml_begins n e b : sgml n e b -> begins b /\ ~ is_text n.
Proof. intros H. inversion H; subst; (split; [eexists; reflexivity | intros []]). Qed.

Definition starts (sp lo h : str) : Prop :=
  exists nm a, xml_name nm /\ qualified nm sp lo /\ loose_rest a /\ h = bs "<" ++ nm ++ a ++ bs ">".

(** What the content of an open element must go on with: anything, something that
    begins with '<', or something that ends a simple element. *)
Inductive wait := Free | AfterText | AfterSimple.

Definition fits (w : wait) (kids : list node) (b : str) : Prop :=
  match w with
  | Free => True
  | AfterText => tag_next b
  | AfterSimple => exists k ks, kids = k :: ks /\ ~ is_text k
  end.

Definition loosely (kids : list node) (b : str) (w : wait) : Prop :=
  forall kids2 o b2, sgmls kids2 o b2 -> fits w kids2 b2 -> sgmls (rev kids ++ kids2) o (b ++ b2).

Definition adding (w : wait) (n : node) (b : str) : Prop :=
  begins b /\ forall kids2 o b2, sgmls kids2 o b2 -> fits w kids2 b2 -> sgmls (n :: kids2) o (b ++ b2).

Lemma loosely_nil : loosely [] [] Free.
Proof. intros kids2 o b2 H _. exact H. Qed.

Lemma loosely_all kids b w : loosely kids b w -> w <> AfterSimple -> sgmls (rev kids) None b.
Proof.
  intros H Hw. specialize (H [] None [] sgmls_nil). rewrite !app_nil_r in H. apply H.
  destruct w; [exact I | intros c r; discriminate | congruence].
Qed.

Lemma loosely_add kids b w w' n b' : loosely kids b w -> adding w' n b' -> (w = AfterSimple -> ~ is_text n) -> loosely (n :: kids) (b ++ b') w'.
Proof.
  intros H [Hb Hi] Hw kids2 o b2 H2 Hf. cbn [rev]. rewrite <- !app_assoc. apply H; [apply Hi; assumption|].
  destruct w; [exact I | apply begins_next, begins_app, Hb|]. exists n, kids2. auto.
Qed.

Lemma loosely_text kids b t raw : loosely kids b Free -> raw <> [] -> loose_text t raw -> loosely (Text t :: kids) (b ++ raw) AfterText.
Proof.
  intros H Hr Ht kids2 o b2 H2 Hf. cbn [rev]. rewrite <- !app_assoc. apply H; [|exact I].
  cbn [app]. apply sgmls_text; auto.
Qed.

Lemma loosely_pending kids b w n b' p l : loosely kids b w -> sgml n (Pending p l) b' -> sgmls (rev (n :: kids)) (Some (p, l)) (b ++ b').
Proof.
  intros H Hn. cbn [rev]. destruct (sgml_begins _ _ _ Hn) as [Hb Ht]. apply H; [apply sgmls_pending, Hn|].
  destruct w; [exact I | apply begins_next, Hb | exists n, []; auto].
Qed.

Lemma adding_ended n b : sgml n Ended b -> adding Free n b.
Proof. intros H. split; [apply (sgml_begins _ _ _ H)|]. intros kids2 o b2 H2 _. apply sgmls_elem; assumption. Qed.

Lemma adding_omitted n b : sgml n Omitted b -> adding AfterSimple n b.
Proof.
  intros H. split; [apply (sgml_begins _ _ _ H)|]. intros kids2 o b2 H2 (k & ks & -> & Hk). apply sgmls_omitted; assumption.
Qed.

Inductive unclosed : wait -> frames -> str -> Prop :=
| unclosed_root w sp lo h kids b : starts sp lo h -> (simple_name lo -> Forall is_text kids) -> loosely kids b w ->
    unclosed w [(sp, lo, kids)] (h ++ b)
| unclosed_more w0 sp0 lo0 kids0 f b0 w sp lo h kids b : unclosed w0 ((sp0, lo0, kids0) :: f) b0 -> ~ simple_name lo0 ->
    starts sp lo h -> (simple_name lo -> Forall is_text kids) -> loosely kids b w ->
    unclosed w ((sp, lo, kids) :: (sp0, lo0, kids0) :: f) (b0 ++ h ++ b).

Lemma unclosed_split w sp lo kids f b : unclosed w ((sp, lo, kids) :: f) b ->
  exists b0 h b1, b = b0 ++ h ++ b1 /\ starts sp lo h /\ (simple_name lo -> Forall is_text kids) /\ loosely kids b1 w /\
    ((f = [] /\ b0 = []) \/ exists w0 sp0 lo0 kids0 f0, f = (sp0, lo0, kids0) :: f0 /\ unclosed w0 f b0 /\ ~ simple_name lo0).
Proof.
  intros H. inversion H as [w1 sp1 lo1 h kids1 b1 Hs Hk Hl|w0 sp0 lo0 kids0 f0 b0 w1 sp1 lo1 h kids1 b1 Hu Hn Hs Hk Hl]; subst.
  - exists [], h, b1. auto 8.
  - exists b0, h, b1. split; [reflexivity|]. split; [exact Hs|]. split; [exact Hk|]. split; [exact Hl|]. right. exists w0, sp0, lo0, kids0, f0. auto.
Qed.

Lemma unclosed_join w sp lo kids f b0 h b1 : starts sp lo h -> (simple_name lo -> Forall is_text kids) -> loosely kids b1 w ->
  ((f = [] /\ b0 = []) \/ exists w0 sp0 lo0 kids0 f0, f = (sp0, lo0, kids0) :: f0 /\ unclosed w0 f b0 /\ ~ simple_name lo0) ->
  unclosed w ((sp, lo, kids) :: f) (b0 ++ h ++ b1).
Proof.
  intros Hs Hk Hl [[-> ->]|(w0 & sp0 & lo0 & kids0 & f0 & -> & Hu & Hn)].
  - cbn [app]. apply unclosed_root; assumption.
  - eapply unclosed_more; eauto.
Qed.

Lemma unclosed_add w w' sp lo kids f b n b' : unclosed w ((sp, lo, kids) :: f) b -> adding w' n b' -> (w = AfterSimple -> ~ is_text n) ->
  (simple_name lo -> is_text n) -> unclosed w' ((sp, lo, n :: kids) :: f) (b ++ b').
Proof.
  intros H Ha Hw Hs. destruct (unclosed_split _ _ _ _ _ _ H) as (b0 & h & b1 & -> & H1 & H2 & H3 & H4).
  rewrite <- !app_assoc. apply unclosed_join; auto. eapply loosely_add; eauto.
Qed.

Lemma unclosed_text sp lo kids f b t raw : unclosed Free ((sp, lo, kids) :: f) b -> raw <> [] -> loose_text t raw ->
  unclosed AfterText ((sp, lo, Text t :: kids) :: f) (b ++ raw).
Proof.
  intros H Hr Ht. destruct (unclosed_split _ _ _ _ _ _ H) as (b0 & h & b1 & -> & H1 & H2 & H3 & H4).
  rewrite <- !app_assoc. apply unclosed_join; [exact H1 | intros Hlo; constructor; [exact I | auto] | apply loosely_text; auto | exact H4].
Qed.

Definition fed (r : outcome) (b : str) : Prop :=
  match r with
  | Done n => exists e, sgml n e b
  | Going f => unclosed Free f b
  | Fail => True
  end.

(** An element that ends with its own end tag, in the open elements around it. *)
Lemma close_ended sp lo kids f b0 e n : n = Elem lo (rev kids) -> sgml n Ended e ->
  ((f = [] /\ b0 = []) \/ exists w0 sp0 lo0 kids0 f0, f = (sp0, lo0, kids0) :: f0 /\ unclosed w0 f b0 /\ ~ simple_name lo0) ->
  fed (close ((sp, lo, kids) :: f)) (b0 ++ e).
Proof.
  intros -> He [[-> ->]|(w0 & sp0 & lo0 & kids0 & f0 & -> & Hu & Hn)]; cbn [close].
  - exists Ended. exact He.
  - eapply unclosed_add; eauto using adding_ended; try (intros _ []); try contradiction.
Qed.

(** The end tag of another element goes on to the elements around. *)
Lemma feed_up p l : forall f sp lo kids b w n b1 fuel, unclosed w ((sp, lo, kids) :: f) b -> ~ simple_name lo -> sgml n (Pending p l) b1 ->
  length f < fuel -> fed (feed fuel false L (TEnd p l) ((sp, lo, n :: kids) :: f)) (b ++ b1).
Proof.
  induction f as [|[[sp0 lo0] kids0] f IH]; intros sp lo kids b w n b1 fuel Hu Hlo Hn Hf; (destruct fuel as [|fuel]; [lia|]);
    destruct (unclosed_split _ _ _ _ _ _ Hu) as (b0 & h & b2 & -> & (nm & a & Hnm & Hq & Ha & ->) & _ & Hl & Hrest);
    pose proof (loosely_pending _ _ _ _ _ _ _ Hl Hn) as Hall; rewrite <- (app_assoc b0); rewrite <- (app_assoc (bs "<" ++ nm ++ a ++ bs ">"));
    rewrite <- (app_assoc (bs "<")), <- (app_assoc nm), <- (app_assoc a); cbn [feed].
  - destruct (str_eqb lo l) eqn:E1.
    + apply str_eqb_eq in E1. subst l. destruct (str_eqb sp p) eqn:E2; [|exact I]. apply str_eqb_eq in E2. subst p.
      eapply close_ended; [reflexivity| |exact Hrest]. eapply sgml_inner; eauto. left. auto.
    + destruct Hrest as [[_ ->]|(w0 & ? & ? & ? & ? & E & _)]; [|discriminate]. cbn [close]. exists (Pending p l).
      eapply sgml_inner; eauto. right. split; [|reflexivity]. intros ->. rewrite str_eqb_refl in E1. discriminate.
  - destruct (str_eqb lo l) eqn:E1.
    + apply str_eqb_eq in E1. subst l. destruct (str_eqb sp p) eqn:E2; [|exact I]. apply str_eqb_eq in E2. subst p.
      eapply close_ended; [reflexivity| |exact Hrest]. eapply sgml_inner; eauto. left. auto.
    + destruct Hrest as [[E _]|(w0 & sp1 & lo1 & kids1 & f1 & E & Hu1 & Hn1)]; [discriminate|]. injection E as <- <- <- <-. cbn [close].
      eapply IH; eauto; [|cbn [length] in Hf; lia]. eapply sgml_inner; eauto. right. split; [|reflexivity].
      intros ->. rewrite str_eqb_refl in E1. discriminate.
Qed.

Lemma feed_end sp lo kids f b w nm p l ws : unclosed w ((sp, lo, kids) :: f) b -> w <> AfterSimple ->
  xml_name nm -> qualified nm p l -> xml_ws ws ->
  fed (feed (length ((sp, lo, kids) :: f)) false L (TEnd p l) ((sp, lo, kids) :: f)) (b ++ bs "</" ++ nm ++ ws ++ bs ">").
Proof.
  intros Hu Hw Hnm Hq Hws. destruct (unclosed_split _ _ _ _ _ _ Hu) as (b0 & h & b2 & -> & (nm0 & a & Hnm0 & Hq0 & Ha & ->) & Hk & Hl & Hrest).
  pose proof (loosely_all _ _ _ Hl Hw) as Hall.
  assert (Hk' : simple_name lo -> Forall is_text (rev kids)) by (intros Hs; apply Forall_rev, Hk, Hs).
  replace ((b0 ++ (bs "<" ++ nm0 ++ a ++ bs ">") ++ b2) ++ bs "</" ++ nm ++ ws ++ bs ">")
    with (b0 ++ (bs "<" ++ nm0 ++ a ++ bs ">" ++ b2 ++ bs "</" ++ nm ++ ws ++ bs ">")) by (rewrite <- !app_assoc; reflexivity).
  cbn [length feed]. destruct (str_eqb lo l) eqn:E1.
  - apply str_eqb_eq in E1. subst l. destruct (str_eqb sp p) eqn:E2; [|exact I]. apply str_eqb_eq in E2. subst p.
    eapply close_ended; [reflexivity| |exact Hrest]. eapply sgml_tag; eauto. left. auto.
  - assert (Hp : sgml (Elem lo (rev kids)) (Pending p l) (bs "<" ++ nm0 ++ a ++ bs ">" ++ b2 ++ bs "</" ++ nm ++ ws ++ bs ">")).
    { eapply sgml_tag; eauto. right. split; [|reflexivity]. intros ->. rewrite str_eqb_refl in E1. discriminate. }
    destruct Hrest as [[-> ->]|(w0 & sp0 & lo0 & kids0 & f0 & -> & Hu0 & Hn0)]; cbn [close].
    + exists (Pending p l). exact Hp.
    + eapply feed_up; eauto.
Qed.

(** A start tag and the like end a simple element. *)
Definition ends_simple (t : token) : Prop := match t with TStart _ _ | TProc _ _ | TMisc => True | _ => False end.

Definition act (t : token) (f : frames) : outcome :=
  match t with TStart sp lo => Going ((sp, lo, []) :: f) | _ => add_kid Misc f end.

Lemma feed_settle t f b w : ends_simple t -> unclosed w f b -> w <> AfterSimple ->
  (exists n, feed (length f) false L t f = Done n /\ sgml n Omitted b) \/
  (exists w' sp lo kids f', unclosed w' ((sp, lo, kids) :: f') b /\ ~ simple_name lo /\
    feed (length f) false L t f = act t ((sp, lo, kids) :: f')).
Proof.
  intros Ht Hu Hw. destruct f as [|[[sp lo] kids] f]; [inversion Hu|].
  assert (Hact : forall fuel sp lo kids f, ~ simple_name lo -> feed (S fuel) false L t ((sp, lo, kids) :: f) = act t ((sp, lo, kids) :: f)).
  { intros fuel sp1 lo1 kids1 f1 H. cbn [feed]. rewrite (simple_false _ H). destruct t; try contradiction; reflexivity. }
  destruct (fold_member lo L) eqn:El.
  - pose proof El as Hs. apply simple_iff in Hs.
    destruct (unclosed_split _ _ _ _ _ _ Hu) as (b0 & h & b2 & -> & (nm0 & a & Hnm0 & Hq0 & Ha & ->) & Hk & Hl & Hrest).
    assert (Ho : sgml (Elem lo (rev kids)) Omitted ((bs "<" ++ nm0 ++ a ++ bs ">") ++ b2)).
    { rewrite <- !app_assoc. eapply sgml_omitted; eauto; [apply Forall_rev, Hk, Hs | eapply loosely_all; eauto]. }
    assert (Hfeed : feed (length ((sp, lo, kids) :: f)) false L t ((sp, lo, kids) :: f) =
      match close ((sp, lo, kids) :: f) with Going f' => feed (length f) false L t f' | r => r end).
    { cbn [length feed]. rewrite El. destruct t; try contradiction; reflexivity. }
    rewrite Hfeed. destruct Hrest as [[-> ->]|(w0 & sp0 & lo0 & kids0 & f0 & -> & Hu0 & Hn0)]; cbn [close].
    + left. eauto.
    + right. exists AfterSimple, sp0, lo0, (Elem lo (rev kids) :: kids0), f0. split; [|split; [exact Hn0|apply Hact, Hn0]].
      eapply unclosed_add; eauto using adding_omitted; try (intros _ []); try contradiction.
  - right. exists w, sp, lo, kids, f. split; [exact Hu|].
    assert (Hn : ~ simple_name lo) by (rewrite <- simple_iff, El; discriminate). split; [exact Hn | apply Hact, Hn].
Qed.

Lemma adding_misc b : begins b -> (forall kids2 o b2, sgmls kids2 o b2 -> sgmls (Misc :: kids2) o (b ++ b2)) -> adding Free Misc b.
Proof. intros Hb H. split; auto. Qed.

Lemma read_loose_sound : forall k s f b w n, length s <= k -> unclosed w f b -> w <> AfterSimple -> (w = AfterText -> tag_next s) ->
  read_element false L (lex false s) f = Some n -> exists e b' s', s = b' ++ s' /\ sgml n e (b ++ b').
Proof.
  induction k as [|k IH]; intros s f b w n Hk Ho Hw Hp H.
  { destruct s; [discriminate | cbn in Hk; lia]. }
  destruct (lex false s) as [|t ts] eqn:El; [discriminate|].
  assert (Hf : exists sp lo kids f', f = (sp, lo, kids) :: f') by (inversion Ho; subst; eauto 6).
  destruct Hf as (sp & lo & kids & f' & ->).
  destruct (lex_loose_sound s t ts El) as [(u & E)|(ts0 & raw & s' & Hbit & -> & Et & Hl)].
  { injection E as -> ->. discriminate. }
  rewrite Et in H. clear El Et t ts.
  (* the rest of the document, after one more piece *)
  assert (Hgo : forall f2 w2, unclosed w2 f2 (b ++ raw) -> w2 <> AfterSimple -> (w2 = AfterText -> tag_next s') ->
    read_element false L (lex false s') f2 = Some n -> exists e b' s'0, raw ++ s' = b' ++ s'0 /\ sgml n e (b ++ b')).
  { intros f2 w2 Ho2 Hw2 Hp2 H2. apply (IH s' f2 (b ++ raw) w2) in H2 as (e & b' & s2 & -> & Hm); auto; [|lia].
    exists e, (raw ++ b'), s2. rewrite <- !app_assoc in *. auto. }
  assert (Homit : sgml n Omitted b -> exists e b' s'0, raw ++ s' = b' ++ s'0 /\ sgml n e (b ++ b')).
  { intros Hm. exists Omitted, [], (raw ++ s'). rewrite app_nil_r. auto. }
  assert (Hmisc : forall t, ends_simple t -> (forall sp lo, t <> TStart sp lo) -> adding Free Misc raw ->
    read_element false L ([t] ++ lex false s') ((sp, lo, kids) :: f') = Some n ->
    exists e b' s'0, raw ++ s' = b' ++ s'0 /\ sgml n e (b ++ b')).
  { intros t Ht Hns Hi H'. cbn [app] in H'.
    change (read_element false L (t :: lex false s') ((sp, lo, kids) :: f')) with
      (match feed (length ((sp, lo, kids) :: f')) false L t ((sp, lo, kids) :: f') with
       | Done n => Some n | Going f' => read_element false L (lex false s') f' | Fail => None end) in H'.
    destruct (feed_settle t _ b w Ht Ho Hw) as [(n' & E & Hn')|(w' & sp1 & lo1 & kids1 & f1 & Hu1 & Hn1 & E)]; rewrite E in H'.
    - injection H' as <-. auto.
    - assert (Ea : act t ((sp1, lo1, kids1) :: f1) = Going ((sp1, lo1, Misc :: kids1) :: f1))
        by (destruct t; try reflexivity; contradiction (Hns space local); reflexivity).
      rewrite Ea in H'. eapply (Hgo _ Free); [|discriminate|discriminate|exact H'].
      eapply unclosed_add; eauto; try (intros _ []); try contradiction. }
  inversion Hbit; subst; cbn [app] in H.
  - (* start tag *)
    change (read_element false L (TStart sp0 lo0 :: lex false s') ((sp, lo, kids) :: f')) with
      (match feed (length ((sp, lo, kids) :: f')) false L (TStart sp0 lo0) ((sp, lo, kids) :: f') with
       | Done n => Some n | Going f' => read_element false L (lex false s') f' | Fail => None end) in H.
    destruct (feed_settle (TStart sp0 lo0) _ b w I Ho Hw) as [(n' & E & Hn')|(w' & sp1 & lo1 & kids1 & f1 & Hu1 & Hn1 & E)]; rewrite E in H.
    + injection H as <-. auto.
    + cbn [act] in H. eapply (Hgo _ Free); [|discriminate|discriminate|exact H]. rewrite <- (app_nil_r (bs "<" ++ nm ++ a ++ bs ">")).
      eapply unclosed_more; eauto using loosely_nil. exists nm, a. auto.
  - (* empty element *)
    change (read_element false L (TStart sp0 lo0 :: TEnd sp0 lo0 :: lex false s') ((sp, lo, kids) :: f')) with
      (match feed (length ((sp, lo, kids) :: f')) false L (TStart sp0 lo0) ((sp, lo, kids) :: f') with
       | Done n => Some n | Going f' => read_element false L (TEnd sp0 lo0 :: lex false s') f' | Fail => None end) in H.
    destruct (feed_settle (TStart sp0 lo0) _ b w I Ho Hw) as [(n' & E & Hn')|(w' & sp1 & lo1 & kids1 & f1 & Hu1 & Hn1 & E)]; rewrite E in H.
    + injection H as <-. auto.
    + cbn [act] in H. cbn [read_element length feed] in H. rewrite !str_eqb_refl in H. cbn [close rev] in H.
      eapply (Hgo _ Free); [|discriminate|discriminate|exact H].
      eapply unclosed_add; [exact Hu1 | apply adding_ended; eapply sgml_empty; eauto | intros _ [] | contradiction].
  - (* end tag *)
    pose proof (feed_end sp lo kids f' b w nm sp0 lo0 w0 Ho Hw) as Hend.
    change (read_element false L (TEnd sp0 lo0 :: lex false s') ((sp, lo, kids) :: f')) with
      (match feed (length ((sp, lo, kids) :: f')) false L (TEnd sp0 lo0) ((sp, lo, kids) :: f') with
       | Done n => Some n | Going f' => read_element false L (lex false s') f' | Fail => None end) in H.
    specialize (Hend ltac:(assumption) ltac:(assumption) ltac:(assumption)).
    destruct (feed (length ((sp, lo, kids) :: f')) false L (TEnd sp0 lo0) ((sp, lo, kids) :: f')) as [n'|f2|]; [| |discriminate].
    + injection H as <-. destruct Hend as [e He]. exists e, (bs "</" ++ nm ++ w0 ++ bs ">"), s'. auto.
    + eapply (Hgo _ Free); [exact Hend|discriminate|discriminate|exact H].
  - (* text *)
    cbn [read_element length feed add_kid] in H.
    assert (w = Free) as ->.
    { destruct w; [reflexivity| |congruence]. specialize (Hp eq_refl). destruct raw as [|c raw]; [congruence|].
      specialize (Hp c (raw ++ "<"%char :: y) eq_refl). subst c. exfalso.
      match goal with H : loose_text _ _ |- _ => exact (loose_not_lt _ _ _ (proj1 H) eq_refl) end. }
    eapply (Hgo _ AfterText); [|discriminate| |exact H].
    + apply unclosed_text; auto.
    + intros _ c r [= <- _]. reflexivity.
  - (* CDATA *)
    cbn [read_element length feed add_kid] in H.
    eapply (Hgo _ Free); [|discriminate|discriminate|exact H].
    eapply unclosed_add; [exact Ho | | intros E; exfalso; apply Hw; exact E | intros _; exact I]. split; [eexists; reflexivity|].
    intros kids2 o b2 H2 _. rewrite <- !app_assoc. apply sgmls_cdata; auto.
  - apply (Hmisc TMisc); [exact I | intros; discriminate| |exact H]. apply adding_misc; [eexists; reflexivity|].
    intros kids2 o b2 H2. rewrite <- !app_assoc. apply sgmls_comment; auto.
  - apply (Hmisc (TProc nm (skip_space i))); [exact I | intros; discriminate| |exact H]. apply adding_misc; [eexists; reflexivity|].
    intros kids2 o b2 H2. rewrite <- !app_assoc. apply sgmls_instruction; auto.
  - apply (Hmisc TMisc); [exact I | intros; discriminate| |exact H]. apply adding_misc; [eexists; reflexivity|].
    intros kids2 o b2 Hb2. rewrite <- !app_assoc. apply sgmls_directive; auto.
Qed.
