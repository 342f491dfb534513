(** What decoding can yield, and that it can be written and read again. *)
From Coq Require Import QArith Lia Bool ZifyBool ZifyNat ZifyN.
From Coq Require Import List.
From Verif Require Import GoStr SpecStr GoStrFacts EnumFacts RatFacts GoNum GoNumFacts GoRat GoTime Types Enums EnumTables Records Common
  Messages SpecNum SpecDate TypesFacts Codec CodecFacts CodecSim SpecCodec Schema Document SpecDocument SetsFacts
  FilingFacts SpecXml Utf8 Xml XmlFacts LexFacts SpellFacts Leaves SpecWire FormFacts Headers SpecHeader HeaderFacts
  Wire WireFacts ExtendFacts ClosureCodec SpecDecode.
Close Scope Q_scope.

(** ** Text *)

(** The converse of xml_text_string. *)
Lemma decode_rune_utf8 c s1 r b rest : decode_rune c s1 = (Some r, b, rest) -> b = utf8_char r /\ c :: s1 = b ++ rest.
Proof.
  unfold decode_rune. pose proof (code_lt c) as Hc.
  assert (Hchr : forall x n, code x = n -> chr n = x) by (intros x n <-; apply chr_code).
  destruct (code c <? 128)%N eqn:E0.
  { intros [= <- <- <-]. split; [|reflexivity]. unfold utf8_char. rewrite E0, chr_code. reflexivity. }
  destruct s1 as [|d s2]; [discriminate|]. pose proof (code_lt d) as Hd.
  destruct (seq2 c d) eqn:E2.
  { intros [= <- <- <-]. split; [|reflexivity]. unfold seq2, cont, between in E2. unfold utf8_char, rune2.
    match goal with |- context [if ?b then _ else _] => replace b with false by lia end.
    match goal with |- context [if ?b then _ else _] => replace b with true by lia end.
    f_equal; [symmetry; apply Hchr; lia | f_equal; symmetry; apply Hchr; lia]. }
  destruct s2 as [|x s3]; [discriminate|]. pose proof (code_lt x) as Hx.
  destruct (seq3 c d x) eqn:E3.
  { intros [= <- <- <-]. split; [|reflexivity]. unfold seq3, cont, between in E3. unfold utf8_char, rune3.
    match goal with |- context [if ?b then _ else _] => replace b with false by lia end.
    match goal with |- context [if ?b then _ else _] => replace b with false by lia end.
    match goal with |- context [if ?b then _ else _] => replace b with true by lia end.
    f_equal; [symmetry; apply Hchr; lia | f_equal; [symmetry; apply Hchr; lia | f_equal; symmetry; apply Hchr; lia]]. }
  destruct s3 as [|y s4]; [discriminate|]. pose proof (code_lt y) as Hy.
  destruct (seq4 c d x y) eqn:E4; [|discriminate].
  intros [= <- <- <-]. split; [|reflexivity]. unfold seq4, cont, between in E4. unfold utf8_char, rune4.
  match goal with |- context [if ?b then _ else _] => replace b with false by lia end.
  match goal with |- context [if ?b then _ else _] => replace b with false by lia end.
  match goal with |- context [if ?b then _ else _] => replace b with false by lia end.
  f_equal; [symmetry; apply Hchr; lia | f_equal; [symmetry; apply Hchr; lia | f_equal; [symmetry; apply Hchr; lia | f_equal; symmetry; apply Hchr; lia]]].
Qed.

Lemma runes_xml_string fuel : forall s, length s <= fuel ->
  forallb (fun p => xml_char (fst p)) (runes_fuel fuel s) = true -> xml_string s.
Proof.
  induction fuel as [|fuel IH]; intros s Hl H.
  - destruct s; [apply xml_string_nil | cbn in Hl; lia].
  - destruct s as [|c s]; [apply xml_string_nil|]. cbn [runes_fuel] in H.
    destruct (decode_rune c s) as [[r b] rest] eqn:E. cbn [forallb fst] in H. apply andb_true_iff in H as [H1 H2].
    destruct r as [r|]; [|discriminate]. cbn [xml_char] in H1.
    apply decode_rune_utf8 in E as [-> E]. rewrite E in *. pose proof (utf8_char_length r).
    apply xml_string_app.
    + exists [r]. split; [constructor; [|constructor] | symmetry; apply app_nil_r].
      unfold xml_rune in H1. unfold xml_code. lia.
    + apply IH; [|exact H2]. rewrite app_length in Hl. lia.
Qed.

Lemma xml_text_xml_string s : xml_text s = true -> xml_string s.
Proof. apply runes_xml_string. lia. Qed.

Definition cont_byte (c : ascii) : Prop := (128 <= code c < 192)%N.

Lemma utf8_char_cont r c d a b : unicode_code r -> utf8_char r = c :: a ++ d :: b -> cont_byte d.
Proof.
  intros Hr H. unfold utf8_char, unicode_code in *.
  assert (Hc : forall x, (128 + x mod 64 < 256)%N) by (intros x; lia).
  assert (G : forall x, cont_byte (chr (128 + x mod 64))) by (intros x; unfold cont_byte; rewrite code_chr by apply Hc; lia).
  destruct (r <? 128)%N; [destruct a; discriminate|].
  destruct (r <? 2048)%N; [destruct a as [|a0 a]; injection H as H; subst; [apply G | destruct a; discriminate]|].
  destruct (r <? 65536)%N.
  - destruct a as [|a0 [|a1 a]]; injection H; intros; subst; try apply G. destruct a; discriminate.
  - destruct a as [|a0 [|a1 [|a2 a]]]; injection H; intros; subst; try apply G. destruct a; discriminate.
Qed.

Lemma utf8_char_head r : unicode_code r -> exists c a, utf8_char r = c :: a /\ ~ cont_byte c.
Proof.
  intros Hr. unfold utf8_char, unicode_code, cont_byte in *.
  destruct (r <? 128)%N eqn:E0; [eexists _, _; split; [reflexivity | rewrite code_chr; lia]|].
  destruct (r <? 2048)%N eqn:E1; [eexists _, _; split; [reflexivity | rewrite code_chr; lia]|].
  destruct (r <? 65536)%N eqn:E2; eexists _, _; (split; [reflexivity | rewrite code_chr; lia]).
Qed.

Lemma space_rune_utf8 r : In r space_runes -> utf8 r = utf8_char r /\ unicode_code r.
Proof.
  intros H. cbn [space_runes In] in H.
  repeat (destruct H as [<-|H]; [split; [reflexivity | unfold unicode_code; lia]|]). destruct H.
Qed.

Lemma xml_string_drop_left w s : ws_char w -> xml_string (w ++ s) -> xml_string s.
Proof.
  intros (r & Hr & ->) (rs & Hrs & E). apply space_rune_utf8 in Hr as [Eu Hu]. rewrite Eu in E.
  destruct rs as [|r0 rs]; [destruct (utf8_char_head r Hu) as (c & a & Ec & _); rewrite Ec in E; discriminate|].
  inversion Hrs; subst. cbn [map concat] in E. apply utf8_char_inj in E as [_ E]; [|exact Hu|apply xml_unicode; assumption].
  exists rs. split; assumption.
Qed.

Lemma concat_split_head rs : Forall xml_code rs -> forall a c b, ~ cont_byte c ->
  concat (map utf8_char rs) = a ++ c :: b -> xml_string a.
Proof.
  induction 1 as [|r rs Hr Hrs IH]; intros a c b Hc E; [destruct a; discriminate|].
  cbn [map concat] in E. apply app_eq_app in E as (l & [[E1 E2]|[E1 E2]]).
  - destruct a as [|a0 a]; [apply xml_string_nil|]. destruct l as [|d l].
    + rewrite app_nil_r in E1. rewrite <- E1. exists [r]. split; [auto | symmetry; apply app_nil_r].
    + exfalso. injection E2 as <- E2. cbn [app] in E1.
      apply (utf8_char_cont r _ _ _ _ (xml_unicode _ Hr)) in E1. contradiction.
  - rewrite E1. apply xml_string_app; [exists [r]; split; [auto | symmetry; apply app_nil_r]|].
    exact (IH l c b Hc E2).
Qed.

Lemma xml_string_drop_right w s : ws_char w -> xml_string (s ++ w) -> xml_string s.
Proof.
  intros (r & Hr & ->) (rs & Hrs & E). apply space_rune_utf8 in Hr as [Eu Hu].
  destruct (utf8_char_head r Hu) as (c & a & Ec & Hc). rewrite Eu, Ec in E. symmetry in E.
  exact (concat_split_head rs Hrs _ _ _ Hc E).
Qed.

Lemma ws_run_snoc s : ws_run s -> s = [] \/ exists s' w, ws_run s' /\ ws_char w /\ s = s' ++ w.
Proof.
  induction 1 as [|w s Hw Hs [->|(s' & w' & H1 & H2 & ->)]]; [left; reflexivity| |].
  - right. exists [], w. split; [constructor|]. split; [exact Hw | apply app_nil_r].
  - right. exists (w ++ s'), w'. split; [constructor; assumption|]. split; [exact H2 | apply app_assoc].
Qed.

Lemma xml_string_unspace l t r : ws_run l -> ws_run r -> xml_string (l ++ t ++ r) -> xml_string t.
Proof.
  intros Hl Hr H. assert (H' : xml_string (t ++ r)).
  { induction Hl as [|w s Hw Hs IH]; [exact H|]. apply IH. rewrite <- app_assoc in H. exact (xml_string_drop_left w _ Hw H). }
  clear H Hl l.
  assert (G : forall n r, length r <= n -> ws_run r -> xml_string (t ++ r) -> xml_string t).
  { clear. induction n as [|n IH]; intros r Hn Hr H.
    - destruct r; [rewrite app_nil_r in H; exact H | cbn in Hn; lia].
    - destruct (ws_run_snoc r Hr) as [->|(s' & w & H1 & H2 & ->)]; [rewrite app_nil_r in H; exact H|].
      apply (IH s').
      + destruct H2 as (x & Hx & ->). apply space_rune_utf8 in Hx as [Eu Hu]. rewrite Eu in Hn.
        destruct (utf8_char_head x Hu) as (c & a & Ec & _). rewrite Ec, app_length in Hn. cbn in Hn. lia.
      + exact H1.
      + rewrite app_assoc in H. exact (xml_string_drop_right w _ H2 H). }
  exact (G _ r (le_n _) Hr H').
Qed.

(** ** Trees *)

Definition token_ok (t : token) : Prop := match t with TChar s => xml_string s | _ => True end.

Lemma read_text_ok strict q cd s r : read_text strict q cd s = Some r -> xml_string (fst r).
Proof.
  unfold read_text. destruct (text_loop _ strict q cd (chr 0) (chr 0) [] s) as [x|]; [|discriminate]. cbn [bind].
  destruct (xml_text (fst x)) eqn:E; [|discriminate]. intros [= <-]. apply xml_text_xml_string, E.
Qed.

Lemma read_tag_ok strict s ts rest : read_tag strict s = Some (ts, rest) -> Forall token_ok ts.
Proof.
  unfold read_tag. destruct (after (bs "/") s); [|destruct (after (bs "?") s); [|destruct (after (bs "!") s)]].
  - unfold read_end_tag. destruct (read_name _); [|discriminate]. cbn [bind]. destruct (after _ _); [|discriminate]. cbn [bind].
    destruct (split_name _). intros [= <- _]. repeat constructor.
  - unfold read_proc_inst. destruct (read_name _); [|discriminate]. cbn [bind]. destruct (split2 _ _); [|discriminate]. cbn [bind].
    destruct (_ && _); [discriminate|]. intros [= <- _]. repeat constructor.
  - destruct (after (bs "-") s0); [|destruct (after (bs "[") s0)].
    + unfold read_comment. destruct (after _ _); [|discriminate]. cbn [bind]. destruct (split2 _ _); [|discriminate]. cbn [bind].
      destruct (after _ _); [|discriminate]. cbn [bind]. intros [= <- _]. repeat constructor.
    + unfold read_cdata. destruct (after _ _); [|discriminate]. cbn [bind].
      destruct (read_text _ _ _ _) eqn:E; [|discriminate]. cbn [bind]. intros [= <- _]. apply read_text_ok in E.
      repeat constructor. exact E.
    + unfold read_directive. destruct s0; [discriminate|]. destruct (skip_directive _ _ _ _); [|discriminate]. cbn [bind].
      intros [= <- _]. repeat constructor.
  - unfold read_start_tag. destruct (read_name _); [|discriminate]. cbn [bind]. destruct (attributes _ _ _); [|discriminate]. cbn [bind].
    destruct (split_name _). intros [= <- _]. destruct (fst _); repeat constructor.
Qed.

Lemma lex_ok strict fuel : forall s, Forall token_ok (lex_fuel fuel strict s).
Proof.
  induction fuel as [|fuel IH]; intros s; [constructor|]. cbn [lex_fuel]. destruct s as [|c s]; [constructor|].
  destruct (Ascii.eqb c "<").
  - destruct (read_tag strict s) as [[ts rest]|] eqn:E; [|constructor]. apply Forall_app. split; [|apply IH].
    exact (read_tag_ok _ _ _ _ E).
  - destruct (read_text strict None false (c :: s)) as [r|] eqn:E; [|constructor]. cbn [option_map].
    apply Forall_app. split; [|apply IH]. apply read_text_ok in E. repeat constructor. exact E.
Qed.

Definition frames_ok (f : frames) : Prop := Forall (fun x => Forall (texts xml_string) (snd x)) f.
Definition outcome_ok (o : outcome) : Prop :=
  match o with Done n => texts xml_string n | Going f => frames_ok f | Fail => True end.

Lemma close_ok f : frames_ok f -> outcome_ok (close f).
Proof.
  intros H. destruct f as [|[[sp nm] kids] [|[[sp' p] pk] rest]]; [exact I| |].
  - inversion H as [|? ? H1 H2]; subst. cbn [close outcome_ok]. apply texts_kids, Forall_rev, H1.
  - inversion H as [|? ? H1 H2]; subst. inversion H2 as [|? ? H3 H4]; subst. cbn [close outcome_ok].
    constructor; [|exact H4]. constructor; [apply texts_kids, Forall_rev, H1 | exact H3].
Qed.

Lemma add_kid_ok n f : texts xml_string n -> frames_ok f -> outcome_ok (add_kid n f).
Proof.
  intros Hn H. destruct f as [|[[sp nm] kids] rest]; [exact I|]. inversion H as [|? ? H1 H2]; subst.
  constructor; [constructor; assumption | exact H2].
Qed.

Lemma feed_ok fuel : forall strict leaves t f, token_ok t -> frames_ok f -> outcome_ok (feed fuel strict leaves t f).
Proof.
  induction fuel as [|fuel IH]; intros strict leaves t f Ht Hf; [exact I|]. cbn [feed].
  destruct f as [|[[sp nm] kids] rest]; [exact I|].
  assert (Ha : outcome_ok (match close ((sp, nm, kids) :: rest) with Going f' => feed fuel strict leaves t f' | r => r end)).
  { pose proof (close_ok _ Hf) as Hc. destruct (close _); [exact Hc | apply IH; assumption | exact I]. }
  destruct t.
  - destruct (_ && _); [exact Ha|]. constructor; [constructor | exact Hf].
  - destruct (str_eqb _ _); [destruct (str_eqb _ _); [apply close_ok, Hf | exact I]|]. destruct strict; [exact I | exact Ha].
  - apply add_kid_ok; assumption.
  - destruct (_ && _); [exact Ha|]. apply add_kid_ok; [exact I | exact Hf].
  - destruct (_ && _); [exact Ha|]. apply add_kid_ok; [exact I | exact Hf].
Qed.

Lemma read_element_ok strict leaves ts : Forall token_ok ts -> forall f n, frames_ok f ->
  read_element strict leaves ts f = Some n -> texts xml_string n.
Proof.
  induction 1 as [|t ts Ht Hts IH]; intros f n Hf H; [discriminate|]. cbn [read_element] in H.
  pose proof (feed_ok (length f) strict leaves t f Ht Hf) as Ho. destruct (feed _ _ _ _ _); [|eauto|discriminate].
  injection H as <-. exact Ho.
Qed.

Lemma next_token_ok ts a : Forall token_ok ts -> next_token ts = Some a -> Forall token_ok (snd a).
Proof.
  induction 1 as [|t ts Ht Hts IH]; [discriminate|]. destruct t; cbn [next_token]; try (intros [= <-]; exact Hts).
  destruct (blank s); [exact IH | intros [= <-]; exact Hts].
Qed.

Lemma read_ofx_ok strict leaves ts n : Forall token_ok ts -> read_ofx strict leaves ts = Some n ->
  texts xml_string n.
Proof.
  intros Hts H. unfold read_ofx in H. destruct (next_token ts) as [a|] eqn:E; [|discriminate]. cbn [bind] in H.
  apply next_token_ok in E; [|exact Hts]. destruct (fst a); try discriminate.
  destruct (str_eqb _ _); [|discriminate]. apply (read_element_ok _ _ _ E) in H; [exact H|].
  constructor; [constructor | constructor].
Qed.

Theorem read_document_texts s v n : read_document s = Some (v, n) -> texts xml_string n.
Proof.
  unfold read_document. destruct (guess_xml s).
  - destruct (read_xml_headers (lex true s)) as [h|] eqn:Eh; [|discriminate]. cbn [bind].
    destruct (read_ofx true [] (snd h)) as [m|] eqn:E; [|discriminate]. cbn [bind]. intros [= _ <-].
    apply read_ofx_ok in E; [exact E|]. unfold read_xml_headers in Eh. pose proof (lex_ok true (length s) s) as Hl.
    fold (lex true s) in Hl. destruct (next_token (lex true s)) as [a|] eqn:Ea; [|discriminate]. cbn [bind] in Eh.
    apply next_token_ok in Ea; [|exact Hl]. destruct (fst a); try discriminate. destruct (negb _); [discriminate|].
    destruct (next_token (snd a)) as [b|] eqn:Eb; [|discriminate]. cbn [bind] in Eh.
    apply next_token_ok in Eb; [|exact Ea]. destruct (fst b); try discriminate. destruct (negb _); [discriminate|].
    destruct (xml_header _); [|discriminate]. cbn [bind] in Eh. injection Eh as <-. exact Eb.
  - destruct (read_sgml_headers s) as [h|] eqn:Eh; [|discriminate]. cbn [bind].
    destruct (read_ofx false ofx_leaf_elements (lex false (snd h))) as [m|] eqn:E; [|discriminate]. cbn [bind]. intros [= _ <-].
    apply read_ofx_ok in E; [exact E|]. apply lex_ok.
Qed.

(** ** Fields *)

Lemma Qred_Qred q : Qred (Qred q) = Qred q.
Proof. apply Qred_complete, Qred_correct. Qed.

Lemma rat_set_string_red s q : rat_set_string s = Some q -> Qred q = q.
Proof.
  intros H. unfold rat_set_string in H. destruct s as [|c s]; [discriminate|].
  destruct (split2 (bs "/") (c :: s)) as [[na db]|].
  - destruct (scan_sign na) as [[neg n1]|]; [|discriminate].
    destruct (nat_scan false n1) as [[[[a a1] a2] [|a3 a4]]|]; try discriminate;
      destruct (nat_scan false db) as [[[[b b1] b2] [|b3 b4]]|]; try discriminate.
    destruct (Z.eqb b 0); [discriminate|]. assert (G : forall x, Some (Qred x) = Some q -> Qred q = q) by (intros x E; assert (E' : Qred x = q) by congruence; rewrite <- E'; apply Qred_Qred). exact (G _ H).
  - destruct (scan_sign (c :: s)) as [[neg n1]|]; [|discriminate].
    destruct (nat_scan true n1) as [[[[m b] f] s2]|]; [|discriminate].
    destruct (scan_exponent s2) as [[[x y] [|r1 r2]]|]; try discriminate.
    destruct (Z.eqb m 0); [injection H as <-; reflexivity|]. cbv zeta in H.
    match type of H with (if ?b then _ else _) = _ => destruct b; [discriminate|] end.
    match type of H with (if ?b then _ else _) = _ => destruct b; [discriminate|] end.
    assert (G : forall x, Some (Qred x) = Some q -> Qred q = q) by (intros x0 E; assert (E' : Qred x0 = q) by congruence; rewrite <- E'; apply Qred_Qred). exact (G _ H).
Qed.

Lemma trim_xml s : xml_string s -> trimmed (trim_space s) /\ xml_string (trim_space s).
Proof.
  intros H. split; [apply trim_space_trimmed|]. destruct (trim_space_sound s) as (l & r & Hl & Hr & E & _).
  rewrite E in H. exact (xml_string_unspace l _ r Hl Hr H).
Qed.

Lemma read_field_zero e l : env_currency e (bs "XXX") = true -> read_field e l (leaf_zero l).
Proof.
  intros He. destruct l; cbn; auto.
  - unfold int64_range. lia.
  - split; [|apply xml_string_nil]. apply (trim_space_trimmed []).
  - split; [|apply xml_string_nil]. apply (trim_space_trimmed []).
  - split; [reflexivity|]. split; [|exact He]. repeat constructor; vm_compute; discriminate.
Qed.

Lemma read_field_text e l s v : xml_string s -> leaf_unmarshal e l s = Some v -> read_field e l v.
Proof.
  intros Hs H. destruct l; cbn [leaf_unmarshal read_field leafval] in *; auto.
  - apply int_unmarshal_iff in H as (t & _ & _ & H). exact H.
  - injection H as <-. apply trim_xml, Hs.
  - exact (rat_set_string_red _ _ H).
  - injection H as <-. apply trim_xml, Hs.
  - apply parse_iso_shape in H as (_ & H1 & H2 & H3 & _). auto.
  - right. unfold enum_unmarshal, enum_from_string in H. pose proof (enum_find_spec (trim_space s) (en_names t) 0) as Hf.
    destruct (enum_find (trim_space s) 0 (en_names t)) as [x|]; [|discriminate]. injection H as <-. lia.
Qed.

Theorem unmarshal_fields e n t v : env_currency e (bs "XXX") = true -> texts xml_string n ->
  unmarshal e t n (zero t) = Some v -> kept (read_field e) t v.
Proof.
  intros He. apply unmarshal_kept.
  - intros l. apply read_field_zero, He.
  - apply xml_string_nil.
  - apply xml_string_app.
  - apply read_field_text.
Qed.
