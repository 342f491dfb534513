(** XML documents: the reader follows the grammar, in both directions. *)
From Coq Require Import QArith Lia Bool List.
From Verif Require Import GoStr GoStrFacts SpecStr GoTime Types Enums EnumTables Records Common Messages Codec Schema Document
  Utf8 Xml LexFacts ExtendFacts SpecXml XmlFacts SpellFacts Headers SpecHeader HeaderFacts WrittenHeaderFacts Leaves Wire
  SpecMarkup MarkupText MarkupTags.
Close Scope Q_scope.

Scheme markup_mut := Minimality for markup Sort Prop
  with markups_mut := Minimality for markups Sort Prop.
Combined Scheme markup_both from markup_mut, markups_mut.

Definition tag_next (s : str) : Prop := forall c r, s = c :: r -> c = "<"%char.

(** The tokens of a piece of a document, and what follows it. *)
Inductive piece : list token -> str -> str -> Prop :=
| piece_start nm sp lo a s : xml_name nm -> qualified nm sp lo -> tag_rest a ->
    piece [TStart sp lo] (bs "<" ++ nm ++ a ++ bs ">") s
| piece_empty nm sp lo a s : xml_name nm -> qualified nm sp lo -> tag_rest a ->
    piece [TStart sp lo; TEnd sp lo] (bs "<" ++ nm ++ a ++ bs "/>") s
| piece_end nm sp lo w s : xml_name nm -> qualified nm sp lo -> xml_ws w ->
    piece [TEnd sp lo] (bs "</" ++ nm ++ w ++ bs ">") s
| piece_text t raw s : raw <> [] -> text_spells t raw -> tag_next s -> piece [TChar t] raw s
| piece_cdata t raw s : cdata_spells t raw -> piece [TChar t] (bs "<![CDATA[" ++ raw ++ bs "]]>") s
| piece_comment c s : ~ occurs (bs "--") (c ++ bs "-") -> piece [TMisc] (bs "<!--" ++ c ++ bs "-->") s
| piece_proc nm i s : instruction nm i -> piece [TProc nm (skip_space i)] (bs "<?" ++ nm ++ i ++ bs "?>") s
| piece_directive c d s : c <> "-"%char -> c <> "["%char -> directive 0 d ->
    piece [TMisc] (bs "<!" ++ [c] ++ d ++ bs ">") s.

(** ** Sound *)

Lemma occurs_first p a b r : p <> [] -> split2 p (a ++ p ++ r) = Some (a, b) -> ~ occurs p (a ++ removelast p).
Proof.
  intros Hp H (x & y & E).
  assert (Hy : a ++ p ++ r = x ++ p ++ (y ++ [last p "x"%char] ++ r)).
  { rewrite (app_removelast_last "x"%char Hp) at 1. rewrite <- (app_assoc (removelast p)), app_assoc, E, <- !app_assoc. reflexivity. }
  pose proof (split2_first _ _ _ _ H _ _ Hy) as Hl.
  apply (f_equal (@length ascii)) in E. rewrite !app_length in E.
  assert (length (removelast p) < length p).
  { clear - Hp. rewrite (app_removelast_last "x"%char Hp) at 2. rewrite app_length. cbn. lia. }
  lia.
Qed.

Lemma occurs_less p a b : ~ occurs p (a ++ b) -> ~ occurs p a.
Proof. intros H Ho. apply H, occurs_app. auto. Qed.

Lemma occurs_skip_class x p a b : Forall (fun c => c <> x) a -> (occurs (x :: p) (a ++ b) <-> occurs (x :: p) b).
Proof. induction 1 as [|c a Hc _ IH]; [reflexivity|]. cbn [app]. rewrite occurs_cons by exact Hc. exact IH. Qed.

Lemma quote_iff q : Ascii.eqb q "'" || (code q =? 34)%N = true <-> quote_char q.
Proof.
  unfold quote_char. rewrite orb_true_iff, Ascii.eqb_eq, N.eqb_eq.
  split; (intros [E|E]; [left; exact E|right]); [|subst q; reflexivity].
  change 34%N with (code (chr 34)) in E. apply code_inj, E.
Qed.

Lemma directive_some fuel : forall q d s r, skip_directive fuel q d s = Some r ->
  match q with
  | None => exists x, s = x ++ bs ">" ++ r /\ directive d x
  | Some q => exists x y, s = x ++ q :: y ++ bs ">" ++ r /\ ~ In q x /\ directive d y
  end.
Proof.
  induction fuel as [|fuel IH]; intros q d s r H; [discriminate|]. cbn [skip_directive] in H.
  destruct s as [|b s]; [discriminate|]. destruct q as [q|].
  - destruct (Ascii.eqb b q) eqn:Eb.
    + apply Ascii.eqb_eq in Eb. subst b. apply IH in H as (x & -> & Hx). exists [], x. auto.
    + apply Ascii.eqb_neq in Eb. apply IH in H as (x & y & -> & Hx & Hy). exists (b :: x), y. split; [reflexivity|].
      split; [|exact Hy]. intros [E|E]; auto.
  - destruct (Ascii.eqb b ">") eqn:Eb; [|destruct (Ascii.eqb b "'" || (code b =? 34)%N) eqn:Eq; [|destruct (Ascii.eqb b "<") eqn:El]].
    + apply Ascii.eqb_eq in Eb. subst b. destruct d.
      * injection H as <-. exists []. split; [reflexivity | constructor].
      * apply IH in H as (x & -> & Hx). exists (">"%char :: x). split; [reflexivity | constructor; exact Hx].
    + apply quote_iff in Eq. apply IH in H as (x & y & -> & Hx & Hy). exists (b :: x ++ b :: y). split.
      * cbn [app]. rewrite <- app_assoc. reflexivity.
      * constructor; assumption.
    + apply Ascii.eqb_eq in El. subst b. destruct (has_prefix (bs "!--") s) eqn:Ep.
      * apply has_prefix_spec in Ep as [s1 ->]. change (skipn 3 (bs "!--" ++ s1)) with s1 in H.
        destruct (split2 (bs "-->") s1) as [[a r']|] eqn:E; [|discriminate].
        pose proof E as E'. apply split2_some in E'. subst s1. apply occurs_first in E; [|discriminate].
        apply IH in H as (x & -> & Hx). exists (bs "<!--" ++ a ++ bs "-->" ++ x). split.
        -- cbn [app bs]. rewrite <- !app_assoc. reflexivity.
        -- apply directive_comment; assumption.
      * apply IH in H as (x & -> & Hx). exists ("<"%char :: x). split; [reflexivity|]. apply directive_open; [|exact Hx].
        intros r' ->. rewrite <- app_assoc, has_prefix_app in Ep. discriminate.
    + apply IH in H as (x & -> & Hx). exists (b :: x). split; [reflexivity|]. apply Ascii.eqb_neq in Eb, El.
      apply directive_byte; auto. intros Hq. apply quote_iff in Hq. congruence.
Qed.

Lemma directive_quoted_skip q x y d r : ~ In q x -> (forall fuel, length y < fuel -> skip_directive fuel None d (y ++ bs ">" ++ r) = Some r) ->
  forall fuel, length x + S (length y) < fuel -> skip_directive fuel (Some q) d (x ++ q :: y ++ bs ">" ++ r) = Some r.
Proof.
  induction x as [|c x IH]; intros Hx H fuel Hf; (destruct fuel as [|fuel]; [lia|]); cbn [app skip_directive].
  - rewrite Ascii.eqb_refl. apply H. cbn in Hf. lia.
  - destruct (Ascii.eqb c q) eqn:E; [apply Ascii.eqb_eq in E; contradiction Hx; left; exact E|].
    apply IH; auto; [|cbn [length] in Hf; lia]. intros Hin. apply Hx. right. exact Hin.
Qed.

Lemma directive_complete d x r : directive d x -> forall fuel, length x < fuel -> skip_directive fuel None d (x ++ bs ">" ++ r) = Some r.
Proof.
  induction 1 as [|d s H IH|d q x s Hq Hx H IH|d c s Hc H IH|d s Hs H IH|d c s H1 H2 H3 H IH]; intros fuel Hf;
    (destruct fuel as [|fuel]; [cbn [length] in Hf; lia|]).
  - reflexivity.
  - cbn [app skip_directive]. change (Ascii.eqb ">" ">") with true. cbv iota. apply IH. cbn [length] in Hf. lia.
  - cbn [app skip_directive]. rewrite <- app_assoc. cbn [app].
    assert (Ascii.eqb q ">" = false) as -> by (destruct Hq as [-> | ->]; reflexivity).
    assert (Ascii.eqb q "'" || (code q =? 34)%N = true) as -> by (apply quote_iff; exact Hq).
    apply directive_quoted_skip; auto. cbn [length] in Hf. rewrite app_length in Hf. cbn [length] in Hf. lia.
  - change (bs "<!--" ++ c ++ bs "-->" ++ s) with ("<"%char :: bs "!--" ++ c ++ bs "-->" ++ s).
    cbn [app skip_directive]. change (Ascii.eqb "<" ">") with false. change (Ascii.eqb "<" "'" || (code "<" =? 34)%N) with false.
    change (Ascii.eqb "<" "<") with true. cbv iota.
    rewrite <- !app_assoc. rewrite has_prefix_app. change (skipn 3 (bs "!--" ++ ?x)) with x.
    rewrite split2_complete by (discriminate || exact Hc). apply IH. rewrite !app_length in Hf. change (length (bs "<!--")) with 4 in Hf. lia.
  - cbn [app skip_directive]. change (Ascii.eqb "<" ">") with false. change (Ascii.eqb "<" "'" || (code "<" =? 34)%N) with false.
    change (Ascii.eqb "<" "<") with true. cbv iota.
    destruct (has_prefix (bs "!--") (s ++ bs ">" ++ r)) eqn:E; [|apply IH; cbn [length] in Hf; lia].
    exfalso. apply has_prefix_spec in E as [y E]. destruct s as [|a [|b [|c s]]]; try discriminate E.
    injection E as -> -> -> _. apply (Hs s). reflexivity.
  - cbn [app skip_directive]. apply Ascii.eqb_neq in H1, H2. rewrite H1, H2.
    assert (Ascii.eqb c "'" || (code c =? 34)%N = false) as ->.
    { destruct (Ascii.eqb c "'" || (code c =? 34)%N) eqn:E; [|reflexivity]. apply quote_iff in E. contradiction. }
    apply IH. cbn [length] in Hf. lia.
Qed.

Lemma version_param i : (null (proc_param (bs "version") i) || str_eqb (proc_param (bs "version") i) (bs "1.0")) = true <-> declares_1_0 i.
Proof.
  unfold proc_param, declares_1_0. change (bs "version" ++ bs "=") with (bs "version="). split.
  - intros H a q x r -> Hfirst Hq Hx.
    rewrite split2_complete in H by (discriminate || exact Hfirst). cbn [app] in H.
    apply quote_iff in Hq. rewrite Hq in H.
    change (x ++ q :: r) with (x ++ [q] ++ r) in H. rewrite (split2_complete [q] x r) in H.
    + apply orb_true_iff in H as [H|H]; [left; destruct x; [reflexivity|discriminate] | right; apply str_eqb_eq, H].
    + discriminate.
    + cbn [removelast]. rewrite app_nil_r. intros (a' & b' & ->). apply Hx. rewrite !in_app_iff. right. left. left. reflexivity.
  - intros H. destruct (split2 (bs "version=") i) as [[a [|q v]]|] eqn:E; try reflexivity.
    destruct (Ascii.eqb q "'" || (code q =? 34)%N) eqn:Eq; [|reflexivity]. apply quote_iff in Eq.
    destruct (split2 [q] v) as [[x r]|] eqn:Ev; [|reflexivity].
    pose proof E as E'. apply split2_some in E'. subst i. pose proof Ev as Ev'. apply split2_some in Ev'. subst v.
    apply occurs_first in E; [|discriminate].
    apply occurs_first in Ev; [|discriminate]. cbn [removelast] in Ev. rewrite app_nil_r in Ev.
    destruct (H a q x r eq_refl E Eq) as [-> | ->]; try reflexivity.
    intros Hin. apply Ev. apply in_split in Hin as (u & w & ->). exists u, w. reflexivity.
Qed.

Lemma occurs_blank_prefix i : occurs (bs "version=") (skip_space i) <-> occurs (bs "version=") i.
Proof.
  destruct (skip_space_split i) as (w & Hw & E & _). rewrite E at 2. change (bs "version=") with ("v"%char :: bs "ersion=").
  rewrite occurs_skip_class; [reflexivity|]. eapply Forall_impl; [|exact Hw]. intros c Hc ->. vm_compute in Hc. intuition discriminate.
Qed.

Lemma version_param_skip i : proc_param (bs "version") (skip_space i) = proc_param (bs "version") i.
Proof.
  destruct (skip_space_split i) as (w & Hw & E & _). set (j := skip_space i) in *. clearbody j. subst i.
  unfold proc_param. change (bs "version" ++ bs "=") with (bs "version=").
  assert (Hv : Forall (fun c => c <> "v"%char) w).
  { eapply Forall_impl; [|exact Hw]. intros c Hc ->. vm_compute in Hc. intuition discriminate. }
  destruct (split2 (bs "version=") j) as [[a r]|] eqn:Ej.
  - pose proof Ej as E'. apply split2_some in E'. subst j. apply occurs_first in Ej; [|discriminate].
    rewrite app_assoc, split2_complete; [reflexivity|discriminate|]. rewrite <- app_assoc.
    change (bs "version=") with ("v"%char :: bs "ersion=") in *. rewrite occurs_skip_class; auto.
  - destruct (split2 (bs "version=") (w ++ j)) as [[a r]|] eqn:Ew; [|reflexivity]. exfalso.
    apply split2_some in Ew. assert (Ho : occurs (bs "version=") (w ++ j)) by (exists a, r; exact Ew).
    change (bs "version=") with ("v"%char :: bs "ersion=") in Ho. rewrite occurs_skip_class in Ho by exact Hv.
    destruct Ho as (x & y & E). unfold split2 in Ej. destruct (index_of_found _ _ _ _ E) as [n En].
    change ("v"%char :: bs "ersion=") with (bs "version=") in En. rewrite En in Ej. discriminate.
Qed.

Lemma occurs_end i : ~ occurs (bs "?>") i -> ~ occurs (bs "?>") (i ++ bs "?").
Proof.
  intros H (a & b & E). destruct b as [|b0 b] using rev_ind.
  - rewrite app_nil_r in E. change (bs "?>") with (bs "?" ++ bs ">") in E. rewrite app_assoc in E. apply app_inj_tail in E as [_ E]. discriminate.
  - rewrite !app_assoc in E. apply app_inj_tail in E as [E _]. apply H. exists a, b. rewrite app_assoc. exact E.
Qed.

Lemma name_class c : name_or_high c = false <-> ~ name_char c /\ (code c < 128)%N.
Proof.
  unfold name_or_high. rewrite orb_false_iff, N.leb_gt, <- name_byte_iff. destruct (name_byte c); intuition congruence.
Qed.

Lemma read_proc_sound s ts r : read_proc_inst s = Some (ts, r) -> exists nm i,
  instruction nm i /\ ts = [TProc nm (skip_space i)] /\ s = nm ++ i ++ bs "?>" ++ r.
Proof.
  unfold read_proc_inst. destruct (read_name s) as [[n r0]|] eqn:En; [|discriminate].
  apply read_name_sound in En as (Hn & -> & Hne & Hr0). cbn [bind fst snd]. destruct (skip_space_split r0) as (w & Hw & Er & Hf).
  destruct (split2 (bs "?>") (skip_space r0)) as [[a b]|] eqn:Es; [|discriminate].
  pose proof Es as Es'. apply split2_some in Es'. cbn [bind fst snd].
  assert (Hskip : skip_space (w ++ a) = a).
  { destruct a as [|c a].
    - rewrite app_nil_r. clear - Hw. induction Hw as [|c w Hc Hw IH]; [reflexivity|].
      cbn [skip_space]. assert (xml_space c = true) as -> by (apply xml_space_iff; apply Forall_cons; [exact Hc | constructor]). exact IH.
    - apply skip_space_app; [exact Hw|]. apply (Hf c (a ++ bs "?>" ++ b)). exact Es'. }
  destruct (str_eqb n (bs "xml") && negb (null (proc_param (bs "version") a)) && negb (str_eqb (proc_param (bs "version") a) (bs "1.0"))) eqn:Ev;
    [discriminate|].
  intros [= <- <-]. exists n, (w ++ a). rewrite Es' in Er. split; [|split].
  - split; [exact Hn|]. split; [|split].
    + intros c y E. apply name_class. subst r0. apply (Hr0 c (y ++ bs "?>" ++ b)). rewrite app_assoc, E. reflexivity.
    + rewrite Es' in Es. apply occurs_first in Es; [|discriminate]. apply occurs_less in Es.
      change (bs "?>") with ("?"%char :: bs ">") in *. rewrite occurs_skip_class; [exact Es|].
      eapply Forall_impl; [|exact Hw]. intros c Hc ->. vm_compute in Hc. intuition discriminate.
    + intros ->. rewrite str_eqb_refl in Ev. apply version_param. rewrite <- version_param_skip, Hskip.
      destruct (null (proc_param (bs "version") a)); [reflexivity|]. destruct (str_eqb (proc_param (bs "version") a) (bs "1.0")); [reflexivity|discriminate].
  - rewrite Hskip. reflexivity.
  - rewrite Er, <- !app_assoc. reflexivity.
Qed.

Lemma read_proc_complete nm i r : instruction nm i -> read_proc_inst (nm ++ i ++ bs "?>" ++ r) = Some ([TProc nm (skip_space i)], r).
Proof.
  intros (Hn & Hi & Ho & Hx). unfold read_proc_inst.
  assert (Hnext : exists c y, i ++ bs "?>" ++ r = c :: y /\ name_or_high c = false).
  { destruct i as [|c i]; [exists "?"%char, (bs ">" ++ r); auto|]. exists c, (i ++ bs "?>" ++ r). split; [reflexivity|].
    apply name_class, (Hi c i eq_refl). }
  destruct Hnext as (c & y & E & Hc). rewrite E, (read_name_complete nm c y Hn Hc). cbn [bind fst snd]. rewrite <- E.
  destruct (skip_space_split i) as (w & Hw & Ei & Hf).
  assert (Hsk : skip_space (i ++ bs "?>" ++ r) = skip_space i ++ bs "?>" ++ r).
  { rewrite Ei at 1. rewrite <- app_assoc. destruct (skip_space i) as [|c' j] eqn:Ej.
    - apply skip_space_app; [exact Hw | reflexivity].
    - cbn [app]. apply skip_space_app; [exact Hw|]. apply (Hf c' j). reflexivity. }
  rewrite Hsk, split2_complete.
  - cbn [bind fst snd]. destruct (str_eqb nm (bs "xml")) eqn:Enm; [|reflexivity]. apply str_eqb_eq in Enm. subst nm.
    specialize (Hx eq_refl). apply version_param in Hx. rewrite <- version_param_skip in Hx.
    destruct (null _); [reflexivity|]. cbn [orb] in Hx. rewrite Hx. reflexivity.
  - discriminate.
  - apply (occurs_end (skip_space i)). intros Hs. apply Ho. rewrite Ei. apply occurs_app. auto.
Qed.

Lemma read_tag_sound s ts r : read_tag true s = Some (ts, r) -> exists raw, piece ts raw r /\ "<"%char :: s = raw ++ r.
Proof.
  unfold read_tag. destruct (after (bs "/") s) as [s1|] eqn:E1; [|destruct (after (bs "?") s) as [s1|] eqn:E2;
    [|destruct (after (bs "!") s) as [s1|] eqn:E3]].
  - apply after_some in E1. subst s. unfold read_end_tag. destruct (read_name s1) as [[n r0]|] eqn:En; [|discriminate].
    apply read_name_sound in En as (Hn & -> & _). cbn [bind fst snd]. destruct (skip_space_split r0) as (w & Hw & Er & _).
    destruct (after (bs ">") (skip_space r0)) as [s2|] eqn:Ea; [|discriminate]. apply after_some in Ea. rewrite Ea in Er. subst r0.
    cbn [bind]. destruct (split_name n) as [sp lo] eqn:Es. apply split_name_iff in Es. intros [= <- <-].
    exists (bs "</" ++ n ++ w ++ bs ">"). split; [apply piece_end; auto | rewrite <- !app_assoc; reflexivity].
  - apply after_some in E2. subst s. intros H. apply read_proc_sound in H as (nm & i & Hi & -> & ->).
    exists (bs "<?" ++ nm ++ i ++ bs "?>"). split; [apply piece_proc; exact Hi | rewrite <- !app_assoc; reflexivity].
  - apply after_some in E3. subst s. destruct (after (bs "-") s1) as [s2|] eqn:E4; [|destruct (after (bs "[") s1) as [s2|] eqn:E5].
    + apply after_some in E4. subst s1. unfold read_comment. destruct (after (bs "-") s2) as [s3|] eqn:E6; [|discriminate].
      apply after_some in E6. subst s2. cbn [bind]. destruct (split2 (bs "--") s3) as [[a b]|] eqn:Es; [|discriminate].
      pose proof Es as Es'. apply split2_some in Es'. subst s3. cbn [bind snd].
      destruct (after (bs ">") b) as [s4|] eqn:E7; [|discriminate]. apply after_some in E7. subst b.
      cbn [bind]. intros [= <- <-]. apply occurs_first in Es; [|discriminate].
      exists (bs "<!--" ++ a ++ bs "-->"). split; [apply piece_comment; exact Es | rewrite <- !app_assoc; reflexivity].
    + apply after_some in E5. subst s1. unfold read_cdata. destruct (after (bs "CDATA[") s2) as [s3|] eqn:E6; [|discriminate].
      apply after_some in E6. subst s2. cbn [bind]. destruct (read_text true None true s3) as [[t r']|] eqn:Et; [|discriminate].
      apply read_cdata_sound in Et as (raw & -> & Ht). cbn [bind fst snd]. intros [= <- <-].
      exists (bs "<![CDATA[" ++ raw ++ bs "]]>"). split; [apply piece_cdata; exact Ht | rewrite <- !app_assoc; reflexivity].
    + unfold read_directive. destruct s1 as [|c s1]; [discriminate|].
      destruct (skip_directive (length s1) None 0 s1) as [r'|] eqn:Ed; [|discriminate].
      apply directive_some in Ed as (d & -> & Hd). cbn [bind]. intros [= <- <-].
      exists (bs "<!" ++ [c] ++ d ++ bs ">"). split; [|cbn; rewrite <- !app_assoc; reflexivity].
      apply piece_directive; [| |exact Hd]; intros ->.
      * pose proof (after_app (bs "-") (d ++ bs ">" ++ r')) as E. change (after (bs "-") ("-"%char :: d ++ bs ">" ++ r') = Some (d ++ bs ">" ++ r')) in E. congruence.
      * pose proof (after_app (bs "[") (d ++ bs ">" ++ r')) as E. change (after (bs "[") ("["%char :: d ++ bs ">" ++ r') = Some (d ++ bs ">" ++ r')) in E. congruence.
  - unfold read_start_tag. destruct (read_name s) as [[n r0]|] eqn:En; [|discriminate].
    apply read_name_sound in En as (Hn & -> & _ & Hr0). cbn [bind fst snd].
    destruct (attributes (S (length r0)) true r0) as [[e b]|] eqn:Ea; [|discriminate].
    apply attributes_sound in Ea as (a & Ha & E). cbn [bind fst snd]. pose proof (rest_of_tag a e b r0 Ha E Hr0) as Hrest.
    destruct (split_name n) as [sp lo] eqn:Es. apply split_name_iff in Es. intros [= <- <-]. subst r0. destruct e.
    + exists (bs "<" ++ n ++ a ++ bs "/>"). split; [apply piece_empty; auto | rewrite <- !app_assoc; reflexivity].
    + exists (bs "<" ++ n ++ a ++ bs ">"). split; [apply piece_start; auto | rewrite <- !app_assoc; reflexivity].
Qed.

Lemma lex_sound s t ts : lex true s = t :: ts -> exists ts0 raw s', piece ts0 raw s' /\ s = raw ++ s' /\
  t :: ts = ts0 ++ lex true s' /\ length s' < length s.
Proof.
  destruct s as [|c s]; [discriminate|]. rewrite lex_cons. unfold lex_step. destruct (Ascii.eqb c "<") eqn:Ec.
  - apply Ascii.eqb_eq in Ec. subst c. destruct (read_tag true s) as [[ts0 s']|] eqn:E; [|discriminate]. intros H.
    pose proof (read_tag_length _ _ _ _ E). apply read_tag_sound in E as (raw & Hp & E).
    exists ts0, raw, s'. split; [exact Hp|]. split; [exact E|]. split; [auto|]. cbn [length]. lia.
  - destruct (read_text true None false (c :: s)) as [[t0 s']|] eqn:E; [|discriminate]. cbn [option_map fst snd]. intros H.
    pose proof (read_text_progress _ _ _ _ _ Ec E) as Hl. apply read_text_sound in E as (raw & E & Ht & Hs').
    exists [TChar t0], raw, s'. split; [|split; [exact E | split; [auto | exact Hl]]].
    apply piece_text; [|exact Ht|exact Hs']. intros ->. cbn [app] in E. rewrite E in Hl. lia.
Qed.

(** The content read so far of an open element: whatever may follow it can be
    appended. [pend] says that it ends with text. *)
Definition content (kids : list node) (b : str) (pend : bool) : Prop :=
  forall kids2 b2, markups kids2 b2 -> (pend = true -> tag_next b2) -> markups (rev kids ++ kids2) (b ++ b2).

(** An item of a content that begins with '<'. *)
Definition item (n : node) (b : str) : Prop :=
  (exists r, b = "<"%char :: r) /\ forall kids2 b2, markups kids2 b2 -> markups (n :: kids2) (b ++ b2).

Lemma content_nil : content [] [] false.
Proof. intros kids2 b2 H _. exact H. Qed.

Lemma content_all kids b pend : content kids b pend -> markups (rev kids) b.
Proof.
  intros H. specialize (H [] [] markups_nil). rewrite !app_nil_r in H. apply H. intros _ c r E. discriminate.
Qed.

Lemma content_item kids b pend n b' : content kids b pend -> item n b' -> content (n :: kids) (b ++ b') false.
Proof.
  intros H [[r ->] Hi] kids2 b2 H2 _. cbn [rev]. rewrite <- !app_assoc. apply H; [apply Hi, H2|].
  intros _ c r' E. injection E as <- _. reflexivity.
Qed.

Lemma content_text kids b t raw : content kids b false -> raw <> [] -> text_spells t raw ->
  content (Text t :: kids) (b ++ raw) true.
Proof.
  intros H Hr Ht kids2 b2 H2 Hp. cbn [rev]. rewrite <- !app_assoc. apply H; [|discriminate].
  cbn [app]. apply markups_text; auto. intros c r. apply Hp. reflexivity.
Qed.

Inductive opened : bool -> frames -> str -> Prop :=
| opened_root pend nm sp lo a kids b : xml_name nm -> qualified nm sp lo -> tag_rest a -> content kids b pend ->
    opened pend [(sp, lo, kids)] ((bs "<" ++ nm ++ a ++ bs ">") ++ b)
| opened_more pend0 pend f b0 nm sp lo a kids b : opened pend0 f b0 ->
    xml_name nm -> qualified nm sp lo -> tag_rest a -> content kids b pend ->
    opened pend ((sp, lo, kids) :: f) (b0 ++ (bs "<" ++ nm ++ a ++ bs ">") ++ b).

Lemma opened_item pend sp lo kids f b n b' : opened pend ((sp, lo, kids) :: f) b -> item n b' ->
  opened false ((sp, lo, n :: kids) :: f) (b ++ b').
Proof.
  intros H Hi. inversion H; subst.
  - rewrite <- app_assoc. constructor; auto. eapply content_item; eauto.
  - rewrite <- !app_assoc. rewrite (app_assoc (bs "<")). 
    replace (b0 ++ ((bs "<" ++ nm) ++ a ++ bs ">" ++ b1 ++ b')) with (b0 ++ (bs "<" ++ nm ++ a ++ bs ">") ++ (b1 ++ b'))
      by (rewrite <- !app_assoc; reflexivity).
    econstructor; eauto. eapply content_item; eauto.
Qed.

Lemma opened_text sp lo kids f b t raw : opened false ((sp, lo, kids) :: f) b -> raw <> [] -> text_spells t raw ->
  opened true ((sp, lo, Text t :: kids) :: f) (b ++ raw).
Proof.
  intros H Hr Ht. inversion H; subst.
  - rewrite <- app_assoc. constructor; auto. apply content_text; auto.
  - replace ((b0 ++ (bs "<" ++ nm ++ a ++ bs ">") ++ b1) ++ raw) with (b0 ++ (bs "<" ++ nm ++ a ++ bs ">") ++ (b1 ++ raw))
      by (rewrite <- !app_assoc; reflexivity).
    econstructor; eauto. apply content_text; auto.
Qed.

Lemma item_elem n b : markup n b -> item n b.
Proof.
  intros H. split; [|intros kids2 b2 H2; apply markups_elem; assumption]. inversion H; subst; eexists; reflexivity.
Qed.

(** The end tag of the innermost open element. *)
Lemma opened_close pend sp lo kids f b nm w : opened pend ((sp, lo, kids) :: f) b ->
  xml_name nm -> qualified nm sp lo -> xml_ws w ->
  exists b0 e, markup (Elem lo (rev kids)) e /\ b ++ bs "</" ++ nm ++ w ++ bs ">" = b0 ++ e /\
    ((f = [] /\ b0 = []) \/ exists pend0, opened pend0 f b0).
Proof.
  intros H Hn Hq Hw. inversion H as [? nm0 ? ? a ? b1 Hn0 Hq0 Ha Hc|pend0 ? ? b0 nm0 ? ? a ? b1 Ho Hn0 Hq0 Ha Hc]; subst.
  - exists [], (bs "<" ++ nm0 ++ a ++ bs ">" ++ b1 ++ bs "</" ++ nm ++ w ++ bs ">"). split.
    + eapply markup_elem; eauto. eapply content_all; eauto.
    + split; [rewrite <- !app_assoc; reflexivity | auto].
  - exists b0, (bs "<" ++ nm0 ++ a ++ bs ">" ++ b1 ++ bs "</" ++ nm ++ w ++ bs ">"). split.
    + eapply markup_elem; eauto. eapply content_all; eauto.
    + split; [rewrite <- !app_assoc; reflexivity | eauto].
Qed.

Lemma read_element_sound : forall k s f b pend n, length s <= k -> opened pend f b -> (pend = true -> tag_next s) ->
  read_element true [] (lex true s) f = Some n -> exists b' s', s = b' ++ s' /\ markup n (b ++ b').
Proof.
  induction k as [|k IH]; intros s f b pend n Hk Ho Hp H.
  { destruct s; [discriminate | cbn in Hk; lia]. }
  destruct (lex true s) as [|t ts] eqn:El; [discriminate|].
  destruct (lex_sound s t ts El) as (ts0 & raw & s' & Hpiece & -> & Et & Hl). rewrite Et in H. clear El Et t ts.
  assert (Hf : exists sp lo kids f', f = (sp, lo, kids) :: f') by (inversion Ho; subst; eauto 6).
  destruct Hf as (sp & lo & kids & f' & ->).
  assert (Hmisc : forall t, (forall fuel, feed (S fuel) true [] t ((sp, lo, kids) :: f') = Going ((sp, lo, Misc :: kids) :: f')) ->
    item Misc raw -> read_element true [] ([t] ++ lex true s') ((sp, lo, kids) :: f') = Some n ->
    exists b' s'0, raw ++ s' = b' ++ s'0 /\ markup n (b ++ b')).
  { intros t Hfeed Hi H'. cbn [app read_element length] in H'. rewrite Hfeed in H'.
    apply (IH s' _ (b ++ raw) false) in H' as (b' & s2 & -> & Hm); [|lia|eapply opened_item; eauto|discriminate].
    exists (raw ++ b'), s2. rewrite <- !app_assoc in *. auto. }
  inversion Hpiece; subst; cbn [app] in H.
  - (* start tag *)
    cbn [read_element length feed negb andb] in H.
    apply (IH s' _ (b ++ (bs "<" ++ nm ++ a ++ bs ">") ++ []) false) in H as (b' & s2 & -> & Hm); [|lia| |discriminate].
    + exists ((bs "<" ++ nm ++ a ++ bs ">") ++ b'), s2. rewrite <- !app_assoc in *. auto.
    + econstructor; eauto. apply content_nil.
  - (* empty element *)
    cbn [read_element length feed negb andb] in H. rewrite !str_eqb_refl in H. cbn [close rev] in H.
    apply (IH s' _ (b ++ (bs "<" ++ nm ++ a ++ bs "/>")) false) in H as (b' & s2 & -> & Hm); [|lia| |discriminate].
    + exists ((bs "<" ++ nm ++ a ++ bs "/>") ++ b'), s2. rewrite <- !app_assoc in *. auto.
    + eapply opened_item; eauto. apply item_elem. eapply markup_empty; eauto.
  - (* end tag *)
    cbn [read_element length feed] in H. destruct (str_eqb lo lo0) eqn:E1; [|discriminate]. apply str_eqb_eq in E1. subst lo0.
    destruct (str_eqb sp sp0) eqn:E2; [|discriminate]. apply str_eqb_eq in E2. subst sp0.
    destruct (opened_close pend sp lo kids f' b nm w Ho H0 H1 H2) as (b0 & e & He & Eb & Hrest).
    destruct f' as [|[[sp1 lo1] kids1] f1]; cbn [close] in H.
    + injection H as <-. exists (bs "</" ++ nm ++ w ++ bs ">"), s'. split; [reflexivity|].
      destruct Hrest as [[_ ->]|[pend0 Ho0]]; [|inversion Ho0]. rewrite Eb. exact He.
    + destruct Hrest as [[E _]|[pend0 Ho0]]; [discriminate|].
      apply (IH s' _ (b0 ++ e) false) in H as (b' & s2 & -> & Hm); [|lia| |discriminate].
      * exists ((bs "</" ++ nm ++ w ++ bs ">") ++ b'), s2. split; [apply app_assoc|].
        rewrite app_assoc, Eb. exact Hm.
      * eapply opened_item; eauto. apply item_elem, He.
  - (* text *)
    cbn [read_element length feed add_kid] in H.
    assert (pend = false) as ->.
    { destruct pend; [|reflexivity]. specialize (Hp eq_refl). destruct raw as [|c raw]; [congruence|].
      specialize (Hp c (raw ++ s') eq_refl). subst c. destruct H1 as [Hlit _]. inversion Hlit; subst; [tauto|].
      destruct (reference_amp_first _ _ H4) as [y Ey]. subst r. discriminate. }
    apply (IH s' _ (b ++ raw) true) in H as (b' & s2 & -> & Hm); [|lia| |intros _; exact H2].
    + exists (raw ++ b'), s2. rewrite <- !app_assoc in *. auto.
    + apply opened_text; auto.
  - (* CDATA *)
    cbn [read_element length feed add_kid] in H.
    apply (IH s' _ (b ++ (bs "<![CDATA[" ++ raw0 ++ bs "]]>")) false) in H as (b' & s2 & -> & Hm); [|lia| |discriminate].
    + exists ((bs "<![CDATA[" ++ raw0 ++ bs "]]>") ++ b'), s2. rewrite <- !app_assoc in *. auto.
    + eapply opened_item; eauto. split; [eexists; reflexivity|]. intros kids2 b2 H2. rewrite <- !app_assoc.
      apply markups_cdata; auto.
  - apply (Hmisc TMisc); auto. split; [eexists; reflexivity|]. intros kids2 b2 H2. rewrite <- !app_assoc.
    apply markups_comment; auto.
  - apply (Hmisc (TProc nm (skip_space i))); auto. split; [eexists; reflexivity|]. intros kids2 b2 Hb2. rewrite <- !app_assoc.
    apply markups_instruction; auto.
  - apply (Hmisc TMisc); auto. split; [eexists; reflexivity|]. intros kids2 b2 Hb2. rewrite <- !app_assoc.
    apply markups_directive; auto.
Qed.

(** ** Complete *)

Lemma after_none p c s : (forall r, c :: s <> p ++ r) -> after p (c :: s) = None.
Proof. intros H. destruct (after p (c :: s)) as [r|] eqn:E; [|reflexivity]. apply after_some in E. contradiction (H r E). Qed.

Lemma name_no_tag nm x : xml_name nm -> after (bs "/") (nm ++ x) = None /\ after (bs "?") (nm ++ x) = None /\ after (bs "!") (nm ++ x) = None.
Proof.
  intros (c & r & -> & Hc & _). cbn [app].
  repeat split; apply after_none; intros y E; injection E as -> _; vm_compute in Hc; intuition (discriminate || lia).
Qed.

Lemma read_start_complete nm sp lo a e s : xml_name nm -> qualified nm sp lo -> tag_rest a ->
  read_tag true (nm ++ a ++ tag_close e ++ s) = Some (if e then [TStart sp lo; TEnd sp lo] else [TStart sp lo], s).
Proof.
  intros Hn Hq Ha. destruct (name_no_tag nm (a ++ tag_close e ++ s) Hn) as (E1 & E2 & E3).
  unfold read_tag. rewrite E1, E2, E3. unfold read_start_tag.
  destruct (tag_rest_next a e s Ha) as (c & y & E & Hc). rewrite E, (read_name_complete nm c y Hn Hc). cbn [bind fst snd].
  rewrite <- E. rewrite (attributes_complete a (proj1 Ha)) by (rewrite app_length; lia). cbn [bind fst snd].
  apply split_name_iff in Hq. rewrite Hq. reflexivity.
Qed.

Lemma piece_complete ts raw s : piece ts raw s -> lex true (raw ++ s) = ts ++ lex true s.
Proof.
  destruct 1 as [nm sp lo a s Hn Hq Ha|nm sp lo a s Hn Hq Ha|nm sp lo w s Hn Hq Hw|t raw s Hr Ht Hs|t raw s Ht|c s Hc|nm i s Hi|c d s Hc1 Hc2 Hd].
  - rewrite <- !app_assoc. change (lex true ("<"%char :: (nm ++ a ++ tag_close false ++ s)) = [TStart sp lo] ++ lex true s).
    apply lex_tag. exact (read_start_complete nm sp lo a false s Hn Hq Ha).
  - rewrite <- !app_assoc. change (lex true ("<"%char :: (nm ++ a ++ tag_close true ++ s)) = [TStart sp lo; TEnd sp lo] ++ lex true s).
    apply lex_tag. exact (read_start_complete nm sp lo a true s Hn Hq Ha).
  - rewrite <- !app_assoc. change (lex true ("<"%char :: (bs "/" ++ nm ++ w ++ bs ">" ++ s)) = [TEnd sp lo] ++ lex true s).
    apply lex_tag. unfold read_tag. rewrite after_app. unfold read_end_tag.
    assert (Hnext : exists c y, w ++ bs ">" ++ s = c :: y /\ name_or_high c = false).
    { destruct w as [|c w]; [exists ">"%char, s; auto|]. exists c, (w ++ bs ">" ++ s). split; [reflexivity|].
      apply space_not_name. apply Forall_cons; [|constructor]. inversion Hw; assumption. }
    destruct Hnext as (c & y & E & Hc). rewrite E, (read_name_complete nm c y Hn Hc). cbn [bind fst snd]. rewrite <- E.
    change (bs ">" ++ s) with (">"%char :: s). rewrite skip_space_app by (auto; reflexivity).
    change (">"%char :: s) with (bs ">" ++ s). rewrite after_app. cbn [bind].
    apply split_name_iff in Hq. rewrite Hq. reflexivity.
  - destruct raw as [|c raw]; [congruence|]. cbn [app]. rewrite lex_cons. unfold lex_step.
    assert (Ascii.eqb c "<" = false) as ->.
    { apply Ascii.eqb_neq. intros ->. destruct Ht as [Hlit _]. inversion Hlit; subst; [tauto|].
      match goal with H : reference _ _ |- _ => destruct (reference_amp_first _ _ H) as [y Ey] end. subst. discriminate. }
    rewrite (read_text_complete t (c :: raw) s Ht Hs : read_text true None false (c :: raw ++ s) = _). reflexivity.
  - rewrite <- !app_assoc. change (lex true ("<"%char :: (bs "![" ++ bs "CDATA[" ++ raw ++ bs "]]>" ++ s)) = [TChar t] ++ lex true s).
    apply lex_tag. unfold read_tag.
    replace (after (bs "/") _) with (@None str) by (symmetry; apply after_none; discriminate).
    replace (after (bs "?") _) with (@None str) by (symmetry; apply after_none; discriminate).
    change (bs "![" ++ ?x) with (bs "!" ++ bs "[" ++ x). rewrite after_app.
    replace (after (bs "-") _) with (@None str) by (symmetry; apply after_none; discriminate).
    rewrite after_app. unfold read_cdata. rewrite after_app. cbn [bind].
    pose proof (read_cdata_complete t raw s Ht) as E. change cdend with (bs "]]>") in E. rewrite E. reflexivity.
  - rewrite <- !app_assoc. change (lex true ("<"%char :: (bs "!" ++ bs "-" ++ bs "-" ++ c ++ bs "--" ++ bs ">" ++ s)) = [TMisc] ++ lex true s).
    apply lex_tag. unfold read_tag.
    replace (after (bs "/") _) with (@None str) by (symmetry; apply after_none; discriminate).
    replace (after (bs "?") _) with (@None str) by (symmetry; apply after_none; discriminate).
    rewrite !after_app. unfold read_comment. rewrite after_app. cbn [bind].
    rewrite split2_complete by (discriminate || exact Hc). cbn [bind snd]. rewrite after_app. reflexivity.
  - rewrite <- !app_assoc. change (lex true ("<"%char :: (bs "?" ++ nm ++ i ++ bs "?>" ++ s)) = [TProc nm (skip_space i)] ++ lex true s).
    apply lex_tag. unfold read_tag.
    replace (after (bs "/") _) with (@None str) by (symmetry; apply after_none; discriminate).
    rewrite !after_app. apply read_proc_complete, Hi.
  - rewrite <- !app_assoc. change (lex true ("<"%char :: (bs "!" ++ c :: d ++ bs ">" ++ s)) = [TMisc] ++ lex true s).
    apply lex_tag. unfold read_tag.
    replace (after (bs "/") _) with (@None str) by (symmetry; apply after_none; discriminate).
    replace (after (bs "?") _) with (@None str) by (symmetry; apply after_none; discriminate).
    rewrite !after_app.
    rewrite (after_none (bs "-")) by (intros r E; injection E as E _; congruence).
    rewrite (after_none (bs "[")) by (intros r E; injection E as E _; congruence).
    unfold read_directive. rewrite (directive_complete 0 d s Hd); [reflexivity|]. rewrite !app_length. cbn. lia.
Qed.

Lemma read_text_next s : tag_next (bs "<" ++ s).
Proof. intros c r E. injection E as <- _. reflexivity. Qed.

Lemma markup_first n b s : markup n b -> tag_next (b ++ s).
Proof. intros H. inversion H; subst; rewrite <- !app_assoc; apply read_text_next. Qed.

Lemma tag_next_app a s : tag_next a -> tag_next s -> tag_next (a ++ s).
Proof. intros Ha Hs c r E. destruct a as [|x a]; [apply (Hs c r E)|]. injection E as <- _. apply (Ha x a eq_refl). Qed.

Definition adds (ns : list node) (b : str) : Prop :=
  forall sp lo kids f s, tag_next s -> read_element true [] (lex true (b ++ s)) ((sp, lo, kids) :: f) =
    read_element true [] (lex true s) ((sp, lo, rev ns ++ kids) :: f).

Lemma read_piece ts raw s f : piece ts raw s -> read_element true [] (lex true (raw ++ s)) f = read_element true [] (ts ++ lex true s) f.
Proof. intros H. rewrite (piece_complete _ _ _ H). reflexivity. Qed.

(** The start tag, the content and the end tag. *)
Lemma read_markup nm nm' prefix local a w kids b : xml_name nm -> qualified nm prefix local -> tag_rest a -> adds kids b ->
  xml_name nm' -> qualified nm' prefix local -> xml_ws w ->
  forall s f, read_element true [] (lex true ((b ++ bs "</" ++ nm' ++ w ++ bs ">") ++ s)) ((prefix, local, []) :: f) =
    match close ((prefix, local, rev kids) :: f) with
    | Done n => Some n | Going f' => read_element true [] (lex true s) f' | Fail => None end.
Proof.
  intros Hn Hq Ha Hb Hn' Hq' Hw s f. rewrite <- app_assoc. rewrite Hb by (rewrite <- !app_assoc; apply read_text_next).
  rewrite (read_piece [TEnd prefix local]) by (apply piece_end; assumption).
  cbn [app read_element length feed]. rewrite !str_eqb_refl, app_nil_r. reflexivity.
Qed.

Lemma read_complete :
  (forall n b, markup n b -> forall sp lo kids f s, read_element true [] (lex true (b ++ s)) ((sp, lo, kids) :: f) =
    read_element true [] (lex true s) ((sp, lo, n :: kids) :: f)) /\
  (forall ns b, markups ns b -> adds ns b).
Proof.
  apply markup_both.
  - intros nm prefix local a Hn Hq Ha sp lo kids f s.
    rewrite (read_piece [TStart prefix local; TEnd prefix local]) by (apply piece_empty; assumption).
    cbn [app read_element length feed negb andb]. rewrite !str_eqb_refl. reflexivity.
  - intros nm nm' prefix local a w kids b Hn Hq Ha Hk IH Hn' Hq' Hw sp lo kids0 f s.
    replace ((bs "<" ++ nm ++ a ++ bs ">" ++ b ++ bs "</" ++ nm' ++ w ++ bs ">") ++ s)
      with ((bs "<" ++ nm ++ a ++ bs ">") ++ (b ++ bs "</" ++ nm' ++ w ++ bs ">") ++ s) by (rewrite <- !app_assoc; reflexivity).
    rewrite (read_piece [TStart prefix local]) by (apply piece_start; assumption).
    cbn [app read_element length feed negb andb]. rewrite (read_markup nm nm' prefix local a w kids b); auto.
    cbn [close rev app]. rewrite rev_involutive. reflexivity.
  - intros sp lo kids f s _. reflexivity.
  - intros n b ns rest H1 IH1 H2 IH2 sp lo kids f s Hs. rewrite <- app_assoc, IH1, IH2 by exact Hs.
    cbn [rev]. rewrite <- !app_assoc. reflexivity.
  - intros t raw ns rest Hr Ht Hnext _ IH sp lo kids f s Hs. rewrite <- app_assoc.
    rewrite (read_piece [TChar t]) by (apply piece_text; auto; apply tag_next_app; auto).
    cbn [app read_element length feed add_kid]. rewrite IH by exact Hs. cbn [rev]. rewrite <- !app_assoc. reflexivity.
  - intros t raw ns rest Ht _ IH sp lo kids f s Hs.
    replace ((bs "<![CDATA[" ++ raw ++ bs "]]>" ++ rest) ++ s) with ((bs "<![CDATA[" ++ raw ++ bs "]]>") ++ rest ++ s)
      by (rewrite <- !app_assoc; reflexivity).
    rewrite (read_piece [TChar t]) by (apply piece_cdata; auto).
    cbn [app read_element length feed add_kid]. rewrite IH by exact Hs. cbn [rev]. rewrite <- !app_assoc. reflexivity.
  - intros c ns rest Hc _ IH sp lo kids f s Hs.
    replace ((bs "<!--" ++ c ++ bs "-->" ++ rest) ++ s) with ((bs "<!--" ++ c ++ bs "-->") ++ rest ++ s)
      by (rewrite <- !app_assoc; reflexivity).
    rewrite (read_piece [TMisc]) by (apply piece_comment; auto).
    cbn [app read_element length feed add_kid negb andb]. rewrite IH by exact Hs. cbn [rev]. rewrite <- !app_assoc. reflexivity.
  - intros target i ns rest Hi _ IH sp lo kids f s Hs.
    replace ((bs "<?" ++ target ++ i ++ bs "?>" ++ rest) ++ s) with ((bs "<?" ++ target ++ i ++ bs "?>") ++ rest ++ s)
      by (rewrite <- !app_assoc; reflexivity).
    rewrite (read_piece [TProc target (skip_space i)]) by (apply piece_proc; auto).
    cbn [app read_element length feed add_kid negb andb]. rewrite IH by exact Hs. cbn [rev]. rewrite <- !app_assoc. reflexivity.
  - intros c d ns rest H1 H2 Hd _ IH sp lo kids f s Hs.
    replace ((bs "<!" ++ [c] ++ d ++ bs ">" ++ rest) ++ s) with ((bs "<!" ++ [c] ++ d ++ bs ">") ++ rest ++ s)
      by (rewrite <- !app_assoc; reflexivity).
    rewrite (read_piece [TMisc]) by (apply piece_directive; auto).
    cbn [app read_element length feed add_kid negb andb]. rewrite IH by exact Hs. cbn [rev]. rewrite <- !app_assoc. reflexivity.
Qed.

(** The outermost element. *)
Lemma read_root_complete local kids b s : markup (Elem local kids) b ->
  exists sp ts, lex true (b ++ s) = TStart sp local :: ts /\ read_element true [] ts [(sp, local, [])] = Some (Elem local kids).
Proof.
  intros H. inversion H as [nm prefix ? a Hn Hq Ha|nm nm' prefix ? a w ? b0 Hn Hq Ha Hk Hn' Hq' Hw]; subst.
  - exists prefix, (TEnd prefix local :: lex true s). split.
    + apply (piece_complete [TStart prefix local; TEnd prefix local]). apply piece_empty; assumption.
    + cbn [read_element length feed]. rewrite !str_eqb_refl. reflexivity.
  - exists prefix, (lex true ((b0 ++ bs "</" ++ nm' ++ w ++ bs ">") ++ s)). split.
    + replace ((bs "<" ++ nm ++ a ++ bs ">" ++ b0 ++ bs "</" ++ nm' ++ w ++ bs ">") ++ s)
        with ((bs "<" ++ nm ++ a ++ bs ">") ++ (b0 ++ bs "</" ++ nm' ++ w ++ bs ">") ++ s) by (rewrite <- !app_assoc; reflexivity).
      apply (piece_complete [TStart prefix local]). apply piece_start; assumption.
    + rewrite (read_markup nm nm' prefix local a w kids b0); auto.
      * cbn [close]. rewrite rev_involutive. reflexivity.
      * apply (proj2 read_complete), Hk.
Qed.

(** ** Documents *)

Lemma next_token_sound k : forall s t ts, length s <= k -> next_token (lex true s) = Some (t, ts) -> (forall w, t <> TChar w) ->
  exists g ts0 raw s', s = g ++ raw ++ s' /\ blanks g /\ piece (t :: ts0) raw s' /\ ts = ts0 ++ lex true s'.
Proof.
  induction k as [|k IH]; intros s t ts Hk H Ht.
  { destruct s; [discriminate | cbn in Hk; lia]. }
  destruct (lex true s) as [|t1 ts1] eqn:El; [discriminate|].
  destruct (lex_sound s t1 ts1 El) as (ts0 & raw & s' & Hp & -> & Et & Hl).
  assert (Hother : (forall w, t1 <> TChar w) -> Some (t1, ts1) = Some (t, ts) -> exists g ts0 raw0 s'0, raw ++ s' = g ++ raw0 ++ s'0 /\
    blanks g /\ piece (t :: ts0) raw0 s'0 /\ ts = ts0 ++ lex true s'0).
  { intros Hn [= -> ->]. destruct ts0 as [|t0 ts0]; [inversion Hp|]. injection Et as <- ->.
    exists [], ts0, raw, s'. repeat split; auto. constructor. }
  destruct t1 as [sp lo|sp lo|w|target inst|]; try (apply Hother; [discriminate | exact H]).
  cbn [next_token] in H. destruct (blank w) eqn:Eb; [|injection H as <- _; contradiction (Ht w); reflexivity].
  apply blank_iff in Eb. clear Hother.
  inversion Hp; subst; try discriminate; injection Et as -> Ets.
  - subst ts1. apply (IH s' t ts) in H as (g & ts0 & raw' & s2 & -> & Hg & Hp' & ->); [|lia|exact Ht].
    exists (raw ++ g), ts0, raw', s2. rewrite <- app_assoc. repeat split; auto.
    eapply blanks_text; eauto. intros c r E. subst g. match goal with H : tag_next _ |- _ => apply (H c (r ++ raw' ++ s2) eq_refl) end.
  - subst ts1. apply (IH s' t ts) in H as (g & ts0 & raw' & s2 & -> & Hg & Hp' & ->); [|lia|exact Ht].
    exists (bs "<![CDATA[" ++ raw0 ++ bs "]]>" ++ g), ts0, raw', s2. rewrite <- !app_assoc. repeat split; auto.
    eapply blanks_cdata; eauto.
Qed.

Lemma next_token_complete g s : blanks g -> tag_next s -> next_token (lex true (g ++ s)) = next_token (lex true s).
Proof.
  intros H. revert s. induction H as [|t raw rest Hr Ht Hw Hn H IH|t raw rest Ht Hw H IH]; intros s Hs; [reflexivity| |].
  - rewrite <- app_assoc. rewrite (piece_complete [TChar t]) by (apply piece_text; auto; apply tag_next_app; auto).
    cbn [app next_token]. apply blank_iff in Hw. rewrite Hw. apply IH, Hs.
  - replace ((bs "<![CDATA[" ++ raw ++ bs "]]>" ++ rest) ++ s) with ((bs "<![CDATA[" ++ raw ++ bs "]]>") ++ rest ++ s)
      by (rewrite <- !app_assoc; reflexivity).
    rewrite (piece_complete [TChar t]) by (apply piece_cdata; auto).
    cbn [app next_token]. apply blank_iff in Hw. rewrite Hw. apply IH, Hs.
Qed.

Lemma xml_header_skip v i : xml_header_for v (skip_space i) <-> xml_header_for v i.
Proof.
  rewrite <- !xml_header_iff. unfold xml_header. destruct (skip_space_split i) as (w & Hw & E & _).
  replace (trim_space i) with (trim_space (skip_space i)); [reflexivity|]. rewrite E at 2.
  pose proof (trim_space_around w (skip_space i) [] (xml_ws_run w Hw) ws_nil) as H. rewrite app_nil_r in H. symmetry. exact H.
Qed.

(** The outermost element keeps its name. *)
Definition root_named (f : frames) (nm : str) : Prop := exists f0 sp kids, f = f0 ++ [(sp, nm, kids)].

Definition ends_named (r : outcome) (nm : str) : Prop :=
  match r with Done n => exists kids, n = Elem nm kids | Going f => root_named f nm | Fail => True end.

Lemma close_named f nm : root_named f nm -> ends_named (close f) nm.
Proof.
  intros (f0 & sp & kids & ->). destruct f0 as [|[[sp1 n1] k1] f0]; [exists (rev kids); reflexivity|].
  destruct f0 as [|[[sp2 n2] k2] f0]; cbn [app close].
  - exists [], sp. eexists. reflexivity.
  - exists ((sp2, n2, Elem n1 (rev k1) :: k2) :: f0), sp, kids. reflexivity.
Qed.

Lemma add_named x f nm : root_named f nm -> ends_named (add_kid x f) nm.
Proof.
  intros (f0 & sp & kids & ->). destruct f0 as [|[[sp1 n1] k1] f0]; cbn [app add_kid].
  - exists [], sp. eexists. reflexivity.
  - exists ((sp1, n1, x :: k1) :: f0), sp, kids. reflexivity.
Qed.

Lemma feed_named fuel st L t : forall f nm, root_named f nm -> ends_named (feed fuel st L t f) nm.
Proof.
  induction fuel as [|fuel IH]; intros f nm H; [exact I|]. destruct f as [|[[sp n] k] f]; [exact I|]. cbn [feed].
  pose proof (close_named _ _ H) as Hc.
  assert (Ha : ends_named (match close ((sp, n, k) :: f) with Going f' => feed fuel st L t f' | r => r end) nm).
  { destruct (close ((sp, n, k) :: f)); [exact Hc | apply IH, Hc | exact I]. }
  destruct t; auto using add_named.
  - destruct (negb st && fold_member n L); [exact Ha|]. destruct H as (f0 & sp1 & kids & E). exists ((space, local, []) :: f0), sp1, kids.
    cbn [app]. rewrite <- E. reflexivity.
  - destruct (str_eqb n local); [destruct (str_eqb sp space); [exact Hc | exact I]|]. destruct st; [exact I | exact Ha].
  - destruct (negb st && fold_member n L); [exact Ha | apply add_named, H].
  - destruct (negb st && fold_member n L); [exact Ha | apply add_named, H].
Qed.

Lemma read_element_name st L ts : forall f nm n, root_named f nm -> read_element st L ts f = Some n -> exists kids, n = Elem nm kids.
Proof.
  induction ts as [|t ts IH]; intros f nm n Hf H; [discriminate|]. cbn [read_element] in H.
  pose proof (feed_named (length f) st L t f nm Hf) as Hn. destruct (feed (length f) st L t f); [|eauto|discriminate].
  injection H as <-. exact Hn.
Qed.

Theorem read_document_iff s v n : ~ looks_like_sgml s -> (read_document s = Some (v, n) <-> xml_document v n s).
Proof.
  intros Hs. rewrite <- guess_sgml_iff in Hs. unfold read_document. destruct (guess_xml s); [clear Hs|congruence].
  unfold read_xml_headers. split.
  - destruct (next_token (lex true s)) as [[t1 ts1]|] eqn:E1; [|discriminate]. cbn [bind fst snd].
    destruct t1 as [| | |target decl|]; try discriminate.
    destruct (str_eqb target (bs "xml")) eqn:Et; [|discriminate]. apply str_eqb_eq in Et. subst target. cbn [negb].
    apply (next_token_sound (length s)) in E1 as (g1 & ts0 & raw & s1 & -> & Hg1 & Hp1 & ->); [|lia|discriminate].
    inversion Hp1 as [| | | | | |nm i x Hi Ets Eraw Ex|]; subst. cbn [app].
    destruct (next_token (lex true s1)) as [[t2 ts2]|] eqn:E2; [|discriminate]. cbn [bind fst snd].
    destruct t2 as [| | |target inst|]; try discriminate.
    destruct (str_eqb target (bs "OFX")) eqn:Et; [|discriminate]. apply str_eqb_eq in Et. subst target. cbn [negb].
    apply (next_token_sound (length s1)) in E2 as (g2 & ts0 & raw & s2 & -> & Hg2 & Hp2 & ->); [|lia|discriminate].
    inversion Hp2 as [| | | | | |nm i2 x Hi2 Ets Eraw Ex|]; subst. cbn [app].
    destruct (xml_header (skip_space i2)) as [v'|] eqn:Ev; [|discriminate]. cbn [bind fst snd].
    unfold read_ofx. destruct (next_token (lex true s2)) as [[t3 ts3]|] eqn:E3; [|discriminate]. cbn [bind fst snd].
    destruct t3 as [sp nm| | | |]; try discriminate.
    destruct (str_eqb nm (bs "OFX")) eqn:Et; [|discriminate]. apply str_eqb_eq in Et. subst nm.
    apply (next_token_sound (length s2)) in E3 as (g3 & ts0 & raw & s3 & -> & Hg3 & Hp3 & ->); [|lia|discriminate].
    destruct (read_element true [] (ts0 ++ lex true s3) [(sp, bs "OFX", [])]) as [n'|] eqn:Er; [|discriminate].
    cbn [bind fst snd]. intros [= -> ->]. apply xml_header_iff in Ev. apply (proj1 (xml_header_skip _ _)) in Ev.
    assert (Hb : exists b s4 kids, raw ++ s3 = b ++ s4 /\ n = Elem (bs "OFX") kids /\ markup n b).
    { inversion Hp3 as [nm sp' lo a x Hn Hq Ha Ets Eraw Ex|nm sp' lo a x Hn Hq Ha Ets Eraw Ex| | | | | |]; subst; cbn [app] in Er.
      - destruct (read_element_sound (length s3) s3 [(sp, bs "OFX", [])] ((bs "<" ++ nm ++ a ++ bs ">") ++ []) false n)
          as (b' & s4 & -> & Hm); auto; [apply opened_root; auto; apply content_nil|discriminate|].
        exists (((bs "<" ++ nm ++ a ++ bs ">") ++ []) ++ b'), s4. rewrite app_nil_r in *.
        assert (Hroot : exists kids, n = Elem (bs "OFX") kids).
        { apply (read_element_name _ _ _ _ (bs "OFX") _) in Er; [exact Er|]. exists [], sp, []. reflexivity. }
        destruct Hroot as [kids ->]. exists kids. split; [apply app_assoc | auto].
      - cbn [read_element length feed] in Er. rewrite !str_eqb_refl in Er. injection Er as <-.
        exists (bs "<" ++ nm ++ a ++ bs "/>"), s3, []. repeat split; auto. eapply markup_empty; eauto. }
    destruct Hb as (b & s4 & kids & Eb & En & Hm).
    exists g1, i, g2, i2, g3, b, s4, kids. rewrite Eb. 
    split; [|split; [exact Hg1|split; [exact Hg2|split; [exact Hg3|split; [exact Hi|split; [exact Hi2|auto]]]]]].
    cbn. rewrite <- !app_assoc. cbn. rewrite <- ?app_assoc. reflexivity.
  - intros (g1 & decl & g2 & inst & g3 & b & rest & kids & -> & Hg1 & Hg2 & Hg3 & Hd & Hi & Hv & -> & Hm).
    change (bs "<?xml") with (bs "<?" ++ bs "xml"). change (bs "<?OFX") with (bs "<?" ++ bs "OFX"). rewrite <- !app_assoc.
    rewrite next_token_complete by (auto; apply read_text_next).
    replace (bs "<?" ++ bs "xml" ++ decl ++ bs "?>" ++ g2 ++ bs "<?" ++ bs "OFX" ++ inst ++ bs "?>" ++ g3 ++ b ++ rest)
      with ((bs "<?" ++ bs "xml" ++ decl ++ bs "?>") ++ g2 ++ bs "<?" ++ bs "OFX" ++ inst ++ bs "?>" ++ g3 ++ b ++ rest)
      by (rewrite <- !app_assoc; reflexivity).
    rewrite (piece_complete _ _ _ (piece_proc _ _ _ Hd)). cbn [app next_token bind fst snd]. rewrite str_eqb_refl. cbn [negb].
    rewrite next_token_complete by (auto; apply read_text_next).
    replace (bs "<?" ++ bs "OFX" ++ inst ++ bs "?>" ++ g3 ++ b ++ rest)
      with ((bs "<?" ++ bs "OFX" ++ inst ++ bs "?>") ++ g3 ++ b ++ rest) by (rewrite <- !app_assoc; reflexivity).
    rewrite (piece_complete _ _ _ (piece_proc _ _ _ Hi)). cbn [app next_token bind fst snd]. rewrite str_eqb_refl. cbn [negb].
    apply (proj2 (xml_header_skip _ _)), xml_header_iff in Hv. rewrite Hv. cbn [bind fst snd].
    destruct (read_root_complete (bs "OFX") kids b rest Hm) as (sp & ts & El & Er).
    unfold read_ofx. rewrite next_token_complete by (auto; apply (markup_first _ _ _ Hm)).
    rewrite El. cbn [next_token bind fst snd]. rewrite str_eqb_refl, Er. reflexivity.
Qed.
