(** The scanner always makes progress: its fuel is enough for every input, and
    its result does not depend on it. *)
From Coq Require Import Lia Bool List.
From Verif Require Import GoStr GoStrFacts Codec Utf8 Xml.

Lemma after_length p s r : after p s = Some r -> length r + length p = length s.
Proof.
  unfold after. destruct (has_prefix p s) eqn:E; [|discriminate]. intros [= <-].
  apply has_prefix_length in E. rewrite skipn_length. lia.
Qed.

Lemma skip_space_length s : length (skip_space s) <= length s.
Proof. induction s as [|c s IH]; cbn [skip_space]; [lia|]. destruct (xml_space c); cbn [length]; lia. Qed.

Lemma span_length p s : length (snd (span p s)) <= length s.
Proof.
  induction s as [|c s IH]; cbn [span]; [cbn; lia|]. destruct (p c); [|cbn [snd length]; lia].
  destruct (span p s). cbn [snd length] in *. lia.
Qed.

Lemma split2_length sep s a r : split2 sep s = Some (a, r) -> length r <= length s.
Proof. intros H. apply split2_some in H. subst s. rewrite !app_length. lia. Qed.

Lemma read_name_length s n r : read_name s = Some (n, r) -> length r <= length s.
Proof.
  unfold read_name. pose proof (span_length name_or_high s). destruct (span name_or_high s) as [a b].
  cbn [snd] in *. destruct (is_name a && negb (null b)); [|discriminate]. intros [= _ <-]. exact H.
Qed.

Lemma entity_length strict s t r : entity strict s = Some (t, r) -> length r <= length s.
Proof.
  unfold entity. intros H.
  destruct (after (bs "#") s) as [s1|] eqn:E1.
  - apply after_length in E1. cbn in E1.
    assert (Hb : forall p body o, length body <= length s1 -> forall raw,
      (let (ds, rest) := span p body in
       if null rest then None
       else match after (bs ";") rest with
            | Some rest' => match o ds with
                            | Some t => Some (t, rest')
                            | None => if strict then None else Some (raw ds ++ bs ";", rest') end
            | None => if strict then None else Some (raw ds, rest) end) = Some (t, r) -> length r <= length s).
    { intros p body o Hl raw Hx. pose proof (span_length p body) as Hs. destruct (span p body) as [ds rest].
      cbn [snd] in Hs. destruct (null rest); [discriminate|].
      destruct (after (bs ";") rest) as [rest'|] eqn:E2.
      - apply after_length in E2. destruct (o ds); [|destruct strict; [discriminate|]]; injection Hx as _ <-; lia.
      - destruct strict; [discriminate|]. injection Hx as _ <-; lia. }
    destruct (has_prefix (bs "x") s1).
    + refine (Hb is_hex (tl s1) (char_ref true) _ (fun ds => bs "&#" ++ bs "x" ++ ds) H). destruct s1; cbn; lia.
    + refine (Hb is_digit s1 (char_ref false) _ (fun ds => bs "&#" ++ [] ++ ds) H). lia.
  - pose proof (span_length name_or_high s) as Hs. destruct (span name_or_high s) as [nm rest].
    cbn [snd] in Hs. destruct (null rest); [discriminate|].
    destruct (after (bs ";") rest) as [rest'|] eqn:E2.
    + apply after_length in E2. destruct (named_entity nm); [|destruct strict; [discriminate|]]; injection H as _ <-; lia.
    + destruct strict; [discriminate|]. injection H as _ <-; lia.
Qed.

Lemma text_loop_length fuel strict q cd : forall b0 b1 acc s t r,
  text_loop fuel strict q cd b0 b1 acc s = Some (t, r) -> length r <= length s.
Proof.
  induction fuel as [|fuel IH]; intros b0 b1 acc s t r H; [discriminate|]. cbn [text_loop] in H.
  destruct s as [|b s]; [destruct cd; [discriminate|]; injection H as _ <-; lia|].
  destruct (Ascii.eqb b0 "]" && Ascii.eqb b1 "]" && Ascii.eqb b ">").
  - destruct cd; [|discriminate]. injection H as _ <-. cbn; lia.
  - destruct (Ascii.eqb b "<" && negb cd).
    + destruct q; [discriminate|]. injection H as _ <-. lia.
    + destruct (match q with Some q => Ascii.eqb b q | None => false end).
      * injection H as _ <-. cbn; lia.
      * destruct (Ascii.eqb b "&" && negb cd).
        -- destruct (entity strict s) as [[t' r']|] eqn:E; [|discriminate].
           apply entity_length in E. apply IH in H. cbn [length]. lia.
        -- apply IH in H. cbn [length]. lia.
Qed.

Lemma read_text_length strict q cd s t r : read_text strict q cd s = Some (t, r) -> length r <= length s.
Proof.
  unfold read_text. destruct (text_loop (S (length s)) strict q cd (chr 0) (chr 0) [] s) as [[t' r']|] eqn:E; [|discriminate].
  cbn [bind fst]. destruct (xml_text t'); [|discriminate]. intros [= _ <-]. eapply text_loop_length; eauto.
Qed.

Lemma text_loop_progress fuel strict b1 acc c s t r : Ascii.eqb c "<" = false ->
  text_loop (S fuel) strict None false (chr 0) b1 acc (c :: s) = Some (t, r) -> length r < length (c :: s).
Proof.
  intros Hc H. cbn [text_loop] in H. rewrite Hc in H. change (Ascii.eqb (chr 0) "]") with false in H.
  cbn [andb] in H. destruct (Ascii.eqb c "&"); cbn [andb negb] in H.
  - destruct (entity strict s) as [[t' r']|] eqn:E; [|discriminate].
    apply entity_length in E. apply text_loop_length in H. cbn [length]. lia.
  - apply text_loop_length in H. cbn [length]. lia.
Qed.

Lemma read_text_progress strict c s t r : Ascii.eqb c "<" = false ->
  read_text strict None false (c :: s) = Some (t, r) -> length r < length (c :: s).
Proof.
  unfold read_text. intros Hc. generalize (length (c :: s)) at 1. intros fuel.
  destruct (text_loop (S fuel) strict None false (chr 0) (chr 0) [] (c :: s)) as [[t2 r2]|] eqn:E2; [|discriminate].
  cbn [bind fst]. destruct (xml_text t2); [|discriminate]. intros [= _ <-].
  eapply text_loop_progress; eauto.
Qed.

Lemma skip_directive_length fuel : forall q d s r, skip_directive fuel q d s = Some r -> length r <= length s.
Proof.
  induction fuel as [|fuel IH]; intros q d s r H; [discriminate|]. cbn [skip_directive] in H.
  destruct s as [|b s]; [discriminate|]. cbn [length].
  destruct q as [q|]; [apply IH in H; lia|].
  destruct (Ascii.eqb b ">").
  - destruct d; [injection H as <-; lia | apply IH in H; lia].
  - destruct (Ascii.eqb b "'" || (code b =? 34)%N); [apply IH in H; lia|].
    destruct (Ascii.eqb b "<"); [|apply IH in H; lia].
    destruct (has_prefix (bs "!--") s); [|apply IH in H; lia].
    destruct (split2 (bs "-->") (skipn 3 s)) as [[a r']|] eqn:E; [|discriminate].
    apply split2_length in E. rewrite skipn_length in E. apply IH in H. lia.
Qed.

Lemma attr_value_length strict s r : attr_value strict s = Some r -> length r <= length s.
Proof.
  unfold attr_value. destruct s as [|q s]; [discriminate|].
  destruct (Ascii.eqb q "'" || (code q =? 34)%N).
  - destruct (read_text strict (Some q) false s) as [[t r']|] eqn:E; [|discriminate]. intros [= <-].
    apply read_text_length in E. cbn [length snd]. lia.
  - destruct strict; [discriminate|].
    match goal with |- context [span ?p (q :: s)] => pose proof (span_length p (q :: s)) as Hs; destruct (span p (q :: s)) as [v rest] end.
    cbn [snd] in Hs. destruct (null rest); [discriminate|]. intros [= <-]. exact Hs.
Qed.

Lemma attributes_length fuel strict : forall s a r, attributes fuel strict s = Some (a, r) -> length r <= length s.
Proof.
  induction fuel as [|fuel IH]; intros s a r H; [discriminate|]. cbn [attributes] in H.
  pose proof (skip_space_length s) as Hs. set (s0 := skip_space s) in *.
  destruct (after (bs "/") s0) as [s1|] eqn:E1.
  - apply after_length in E1. destruct (after (bs ">") s1) as [s2|] eqn:E2; [|discriminate].
    apply after_length in E2. cbn [option_map] in H. injection H as _ <-. lia.
  - destruct (after (bs ">") s0) as [s1|] eqn:E2.
    + apply after_length in E2. injection H as _ <-. lia.
    + destruct (read_name s0) as [[n r0]|] eqn:E3; [|discriminate]. cbn [bind snd] in H.
      apply read_name_length in E3. pose proof (skip_space_length r0) as Hr0.
      destruct (after (bs "=") (skip_space r0)) as [s2|] eqn:E4.
      * apply after_length in E4. destruct (attr_value strict (skip_space s2)) as [s3|] eqn:E5; [|discriminate].
        cbn [bind] in H. apply attr_value_length in E5. pose proof (skip_space_length s2). apply IH in H. lia.
      * destruct (strict || null (skip_space r0)); [discriminate|]. apply IH in H. lia.
Qed.

Lemma read_tag_length strict s ts r : read_tag strict s = Some (ts, r) -> length r <= length s.
Proof.
  unfold read_tag. destruct (after (bs "/") s) as [s1|] eqn:E1; [|destruct (after (bs "?") s) as [s1|] eqn:E2;
    [|destruct (after (bs "!") s) as [s1|] eqn:E3]].
  - apply after_length in E1. unfold read_end_tag. destruct (read_name s1) as [[n r0]|] eqn:En; [|discriminate].
    apply read_name_length in En. cbn [bind fst snd]. pose proof (skip_space_length r0).
    destruct (after (bs ">") (skip_space r0)) as [s2|] eqn:Ea; [|discriminate]. apply after_length in Ea.
    cbn [bind]. destruct (split_name n). intros [= _ <-]. lia.
  - apply after_length in E2. unfold read_proc_inst. destruct (read_name s1) as [[n r0]|] eqn:En; [|discriminate].
    apply read_name_length in En. cbn [bind fst snd]. pose proof (skip_space_length r0).
    destruct (split2 (bs "?>") (skip_space r0)) as [[a b]|] eqn:Es; [|discriminate]. apply split2_length in Es.
    cbn [bind fst snd]. destruct (_ && _ && _); [discriminate|]. intros [= _ <-]. lia.
  - apply after_length in E3. destruct (after (bs "-") s1) as [s2|] eqn:E4; [|destruct (after (bs "[") s1) as [s2|] eqn:E5].
    + apply after_length in E4. unfold read_comment. destruct (after (bs "-") s2) as [s3|] eqn:E6; [|discriminate].
      apply after_length in E6. cbn [bind]. destruct (split2 (bs "--") s3) as [[a b]|] eqn:Es; [|discriminate].
      apply split2_length in Es. cbn [bind snd]. destruct (after (bs ">") b) as [s4|] eqn:E7; [|discriminate].
      apply after_length in E7. cbn [bind]. intros [= _ <-]. lia.
    + apply after_length in E5. unfold read_cdata. destruct (after (bs "CDATA[") s2) as [s3|] eqn:E6; [|discriminate].
      apply after_length in E6. cbn [bind]. destruct (read_text strict None true s3) as [[t r']|] eqn:Et; [|discriminate].
      apply read_text_length in Et. cbn [bind fst snd]. intros [= _ <-]. lia.
    + unfold read_directive. destruct s1 as [|c s1]; [discriminate|].
      destruct (skip_directive (length s1) None 0 s1) as [r'|] eqn:Ed; [|discriminate].
      apply skip_directive_length in Ed. cbn [bind]. intros [= _ <-]. cbn [length] in E3. lia.
  - unfold read_start_tag. destruct (read_name s) as [[n r0]|] eqn:En; [|discriminate].
    apply read_name_length in En. cbn [bind fst snd].
    destruct (attributes (S (length r0)) strict r0) as [[a b]|] eqn:Ea; [|discriminate].
    apply attributes_length in Ea. cbn [bind fst snd]. destruct (split_name n). intros [= _ <-]. lia.
Qed.

Lemma lex_step_shorter strict c s ts rest :
  (if Ascii.eqb c "<" then read_tag strict s
   else option_map (fun r => ([TChar (fst r)], snd r)) (read_text strict None false (c :: s))) = Some (ts, rest) ->
  length rest <= length s.
Proof.
  destruct (Ascii.eqb c "<") eqn:E.
  - apply read_tag_length.
  - destruct (read_text strict None false (c :: s)) as [[t r]|] eqn:Et; [|discriminate].
    cbn [option_map fst snd]. intros [= _ <-]. apply read_text_progress in Et; [|exact E]. cbn [length] in Et. lia.
Qed.

(** More fuel than the length of the input changes nothing. *)
Lemma lex_fuel_enough fuel : forall strict s, length s <= fuel -> lex_fuel fuel strict s = lex strict s.
Proof.
  enough (H : forall f1 f2 strict s, length s <= f1 -> length s <= f2 -> lex_fuel f1 strict s = lex_fuel f2 strict s)
    by (intros; apply H; auto).
  induction f1 as [|f1 IH]; intros f2 strict s H1 H2.
  - destruct s; [|cbn in H1; lia]. destruct f2; reflexivity.
  - destruct s as [|c s]; [destruct f2; reflexivity|]. destruct f2 as [|f2]; [cbn in H2; lia|].
    cbn [lex_fuel length] in *.
    match goal with |- match ?x with _ => _ end = _ => destruct x as [[ts rest]|] eqn:E; [|reflexivity] end.
    apply lex_step_shorter in E. f_equal. apply IH; lia.
Qed.
