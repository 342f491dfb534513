(** Bytes after the end of a document change nothing, and a document that is cut
    short is refused. *)
From Coq Require Import Lia Bool List.
From Verif Require Import GoStr GoStrFacts EnumTables Records Common Messages Codec Document Utf8 Xml LexFacts
  SpecStr SpecCodec SpecDocument SpecXml XmlFacts SpellFacts Leaves SpecWire FormFacts SimFacts
  Headers SpecHeader HeaderFacts WrittenHeaderFacts Wire WireFacts.

(** ** What is left of the input is a suffix of it *)

Definition suffix (r s : str) : Prop := exists a, s = a ++ r.

Lemma suffix_refl s : suffix s s.
Proof. exists []. reflexivity. Qed.

Lemma suffix_trans a b c : suffix a b -> suffix b c -> suffix a c.
Proof. intros [x ->] [y ->]. exists (y ++ x). apply app_assoc. Qed.

Lemma suffix_cons c r s : suffix r s -> suffix r (c :: s).
Proof. intros [a ->]. exists (c :: a). reflexivity. Qed.

Lemma suffix_skipn n s : suffix (skipn n s) s.
Proof. exists (firstn n s). symmetry. apply firstn_skipn. Qed.

Lemma after_suffix p s r : after p s = Some r -> suffix r s.
Proof. unfold after. destruct (has_prefix p s); [|discriminate]. intros [= <-]. apply suffix_skipn. Qed.

Lemma skip_space_suffix s : suffix (skip_space s) s.
Proof.
  induction s as [|c s IH]; cbn [skip_space]; [apply suffix_refl|].
  destruct (xml_space c); [apply suffix_cons, IH | apply suffix_refl].
Qed.

Lemma span_suffix p s : suffix (snd (span p s)) s.
Proof.
  induction s as [|c s IH]; cbn [span]; [apply suffix_refl|]. destruct (p c); [|apply suffix_refl].
  destruct (span p s). cbn [snd] in *. apply suffix_cons, IH.
Qed.

Lemma split2_suffix sep s a r : split2 sep s = Some (a, r) -> suffix r s.
Proof. intros H. apply split2_some in H. subst s. exists (a ++ sep). apply app_assoc. Qed.

Lemma read_name_suffix s n r : read_name s = Some (n, r) -> suffix r s.
Proof.
  unfold read_name. pose proof (span_suffix name_or_high s) as H. destruct (span name_or_high s) as [a b].
  cbn [snd] in *. destruct (is_name a && negb (null b)); [|discriminate]. intros [= _ <-]. exact H.
Qed.

Lemma entity_suffix strict s t r : entity strict s = Some (t, r) -> suffix r s.
Proof.
  unfold entity. intros H.
  assert (Hb : forall p body (o : str -> option str) raw, suffix body s ->
      (let (ds, rest) := span p body in
       if null rest then None
       else match after (bs ";") rest with
            | Some rest' => match o ds with
                            | Some t => Some (t, rest')
                            | None => if strict then None else Some (raw ds ++ bs ";", rest') end
            | None => if strict then None else Some (raw ds, rest) end) = Some (t, r) -> suffix r s).
  { intros p body o raw Hl Hx. pose proof (span_suffix p body) as Hs. destruct (span p body) as [ds rest].
    cbn [snd] in Hs. destruct (null rest); [discriminate|].
    pose proof (suffix_trans _ _ _ Hs Hl) as Hr.
    destruct (after (bs ";") rest) as [rest'|] eqn:E2.
    - apply after_suffix in E2. pose proof (suffix_trans _ _ _ E2 Hr).
      destruct (o ds); [|destruct strict; [discriminate|]]; injection Hx as _ <-; assumption.
    - destruct strict; [discriminate|]. injection Hx as _ <-; assumption. }
  destruct (after (bs "#") s) as [s1|] eqn:E1.
  - apply after_suffix in E1. destruct (has_prefix (bs "x") s1).
    + refine (Hb is_hex (tl s1) (char_ref true) (fun ds => bs "&#" ++ bs "x" ++ ds) _ H).
      apply (suffix_trans _ s1); [|exact E1]. destruct s1; [apply suffix_refl | apply suffix_cons, suffix_refl].
    + refine (Hb is_digit s1 (char_ref false) (fun ds => bs "&#" ++ [] ++ ds) E1 H).
  - refine (Hb name_or_high s named_entity (fun nm => bs "&" ++ nm) (suffix_refl s) _).
    destruct (span name_or_high s) as [nm rest]. destruct (null rest); [discriminate|].
    destruct (after (bs ";") rest); exact H.
Qed.

Lemma text_loop_suffix fuel strict q cd : forall b0 b1 acc s t r,
  text_loop fuel strict q cd b0 b1 acc s = Some (t, r) -> suffix r s.
Proof.
  induction fuel as [|fuel IH]; intros b0 b1 acc s t r H; [discriminate|]. cbn [text_loop] in H.
  destruct s as [|b s]; [destruct cd; [discriminate|]; injection H as _ <-; apply suffix_refl|].
  destruct (Ascii.eqb b0 "]" && Ascii.eqb b1 "]" && Ascii.eqb b ">").
  - destruct cd; [|discriminate]. injection H as _ <-. apply suffix_cons, suffix_refl.
  - destruct (Ascii.eqb b "<" && negb cd).
    + destruct q; [discriminate|]. injection H as _ <-. apply suffix_refl.
    + destruct (match q with Some q => Ascii.eqb b q | None => false end).
      * injection H as _ <-. apply suffix_cons, suffix_refl.
      * destruct (Ascii.eqb b "&" && negb cd).
        -- destruct (entity strict s) as [[t' r']|] eqn:E; [|discriminate].
           apply entity_suffix in E. apply IH in H. apply suffix_cons. eapply suffix_trans; eauto.
        -- apply IH in H. apply suffix_cons, H.
Qed.

Lemma read_text_suffix strict q cd s t r : read_text strict q cd s = Some (t, r) -> suffix r s.
Proof.
  unfold read_text. destruct (text_loop (S (length s)) strict q cd (chr 0) (chr 0) [] s) as [[t' r']|] eqn:E; [|discriminate].
  cbn [bind fst]. destruct (xml_text t'); [|discriminate]. intros [= _ <-]. eapply text_loop_suffix; eauto.
Qed.

Lemma skip_directive_suffix fuel : forall q d s r, skip_directive fuel q d s = Some r -> suffix r s.
Proof.
  induction fuel as [|fuel IH]; intros q d s r H; [discriminate|]. cbn [skip_directive] in H.
  destruct s as [|b s]; [discriminate|]. apply suffix_cons.
  destruct q as [q|]; [apply IH in H; exact H|].
  destruct (Ascii.eqb b ">").
  - destruct d; [injection H as <-; apply suffix_refl | apply IH in H; exact H].
  - destruct (Ascii.eqb b "'" || (code b =? 34)%N); [apply IH in H; exact H|].
    destruct (Ascii.eqb b "<"); [|apply IH in H; exact H].
    destruct (has_prefix (bs "!--") s); [|apply IH in H; exact H].
    destruct (split2 (bs "-->") (skipn 3 s)) as [[a r']|] eqn:E; [|discriminate].
    apply split2_suffix in E. apply IH in H. pose proof (suffix_skipn 3 s).
    eapply suffix_trans; [exact H|]. eapply suffix_trans; eauto.
Qed.

Lemma attr_value_suffix strict s r : attr_value strict s = Some r -> suffix r s.
Proof.
  unfold attr_value. destruct s as [|q s]; [discriminate|].
  destruct (Ascii.eqb q "'" || (code q =? 34)%N).
  - destruct (read_text strict (Some q) false s) as [[t r']|] eqn:E; [|discriminate]. intros [= <-].
    apply read_text_suffix in E. apply suffix_cons, E.
  - destruct strict; [discriminate|].
    match goal with |- context [span ?p (q :: s)] => pose proof (span_suffix p (q :: s)) as Hs; destruct (span p (q :: s)) as [v rest] end.
    cbn [snd] in Hs. destruct (null rest); [discriminate|]. intros [= <-]. exact Hs.
Qed.

Lemma attributes_suffix fuel strict : forall s a r, attributes fuel strict s = Some (a, r) -> suffix r s.
Proof.
  induction fuel as [|fuel IH]; intros s a r H; [discriminate|]. cbn [attributes] in H.
  pose proof (skip_space_suffix s) as Hs. set (s0 := skip_space s) in *.
  apply (suffix_trans _ s0); [|exact Hs].
  destruct (after (bs "/") s0) as [s1|] eqn:E1.
  - apply after_suffix in E1. destruct (after (bs ">") s1) as [s2|] eqn:E2; [|discriminate].
    apply after_suffix in E2. cbn [option_map] in H. injection H as _ <-. eapply suffix_trans; eauto.
  - destruct (after (bs ">") s0) as [s1|] eqn:E2.
    + apply after_suffix in E2. injection H as _ <-. exact E2.
    + destruct (read_name s0) as [[n r0]|] eqn:E3; [|discriminate]. cbn [bind snd] in H.
      apply read_name_suffix in E3. pose proof (skip_space_suffix r0) as Hr0.
      apply (suffix_trans _ (skip_space r0)); [|eapply suffix_trans; eauto].
      destruct (after (bs "=") (skip_space r0)) as [s2|] eqn:E4.
      * apply after_suffix in E4. destruct (attr_value strict (skip_space s2)) as [s3|] eqn:E5; [|discriminate].
        cbn [bind] in H. apply attr_value_suffix in E5. pose proof (skip_space_suffix s2). apply IH in H.
        eapply suffix_trans; [exact H|]. eapply suffix_trans; [exact E5|]. eapply suffix_trans; eauto.
      * destruct (strict || null (skip_space r0)); [discriminate|]. apply IH in H. exact H.
Qed.

Lemma read_tag_suffix strict s ts r : read_tag strict s = Some (ts, r) ->
  suffix r s /\ forall target inst, In (TProc target inst) ts -> exists a b, s = a ++ inst ++ b.
Proof.
  unfold read_tag. destruct (after (bs "/") s) as [s1|] eqn:E1; [|destruct (after (bs "?") s) as [s1|] eqn:E2;
    [|destruct (after (bs "!") s) as [s1|] eqn:E3]].
  - apply after_suffix in E1. unfold read_end_tag. destruct (read_name s1) as [[n r0]|] eqn:En; [|discriminate].
    apply read_name_suffix in En. cbn [bind fst snd]. pose proof (skip_space_suffix r0).
    destruct (after (bs ">") (skip_space r0)) as [s2|] eqn:Ea; [|discriminate]. apply after_suffix in Ea.
    cbn [bind]. destruct (split_name n). intros [= <- <-]. split.
    + eapply suffix_trans; [exact Ea|]. eapply suffix_trans; [eassumption|]. eapply suffix_trans; eauto.
    + intros target inst [[=]|[]].
  - apply after_suffix in E2. unfold read_proc_inst. destruct (read_name s1) as [[n r0]|] eqn:En; [|discriminate].
    apply read_name_suffix in En. cbn [bind fst snd]. pose proof (skip_space_suffix r0) as Hr0.
    destruct (split2 (bs "?>") (skip_space r0)) as [[a b]|] eqn:Es; [|discriminate].
    cbn [bind fst snd]. destruct (_ && _ && _); [discriminate|]. intros [= <- <-].
    assert (Hr : suffix (skip_space r0) s) by (eapply suffix_trans; [exact Hr0|]; eapply suffix_trans; eauto).
    split.
    + apply split2_suffix in Es. eapply suffix_trans; eauto.
    + intros target inst [[= _ <-]|[]]. apply split2_some in Es. destruct Hr as [x ->]. rewrite Es. eauto.
  - apply after_suffix in E3. destruct (after (bs "-") s1) as [s2|] eqn:E4; [|destruct (after (bs "[") s1) as [s2|] eqn:E5].
    + apply after_suffix in E4. unfold read_comment. destruct (after (bs "-") s2) as [s3|] eqn:E6; [|discriminate].
      apply after_suffix in E6. cbn [bind]. destruct (split2 (bs "--") s3) as [[a b]|] eqn:Es; [|discriminate].
      apply split2_suffix in Es. cbn [bind snd]. destruct (after (bs ">") b) as [s4|] eqn:E7; [|discriminate].
      apply after_suffix in E7. cbn [bind]. intros [= <- <-]. split; [|intros target inst [[=]|[]]].
      eapply suffix_trans; [exact E7|]. eapply suffix_trans; [exact Es|]. eapply suffix_trans; [exact E6|].
      eapply suffix_trans; eauto.
    + apply after_suffix in E5. unfold read_cdata. destruct (after (bs "CDATA[") s2) as [s3|] eqn:E6; [|discriminate].
      apply after_suffix in E6. cbn [bind]. destruct (read_text strict None true s3) as [[t r']|] eqn:Et; [|discriminate].
      apply read_text_suffix in Et. cbn [bind fst snd]. intros [= <- <-]. split; [|intros target inst [[=]|[]]].
      eapply suffix_trans; [exact Et|]. eapply suffix_trans; [exact E6|]. eapply suffix_trans; eauto.
    + unfold read_directive. destruct s1 as [|c s1]; [discriminate|].
      destruct (skip_directive (length s1) None 0 s1) as [r'|] eqn:Ed; [|discriminate].
      apply skip_directive_suffix in Ed. cbn [bind]. intros [= <- <-]. split; [|intros target inst [[=]|[]]].
      eapply suffix_trans; [|exact E3]. apply suffix_cons, Ed.
  - unfold read_start_tag. destruct (read_name s) as [[n r0]|] eqn:En; [|discriminate].
    apply read_name_suffix in En. cbn [bind fst snd].
    destruct (attributes (S (length r0)) strict r0) as [[a b]|] eqn:Ea; [|discriminate].
    apply attributes_suffix in Ea. cbn [bind fst snd]. destruct (split_name n). intros [= <- <-]. split.
    + eapply suffix_trans; eauto.
    + intros target inst. destruct a; [intros [[=]|[[=]|[]]] | intros [[=]|[]]].
Qed.

Definition lex_step strict c s : option (list token * str) :=
  if Ascii.eqb c "<" then read_tag strict s
  else option_map (fun r => ([TChar (fst r)], snd r)) (read_text strict None false (c :: s)).

Lemma lex_cons strict c s : lex strict (c :: s) =
  match lex_step strict c s with Some (ts, rest) => ts ++ lex strict rest | None => [] end.
Proof.
  unfold lex at 1. cbn [length lex_fuel]. fold (lex_step strict c s).
  destruct (lex_step strict c s) as [[ts rest]|] eqn:E; [|reflexivity].
  apply lex_step_shorter in E. rewrite lex_fuel_enough by exact E. reflexivity.
Qed.

(** A processing instruction is a part of the input. *)
Lemma lex_proc strict : forall n s, length s <= n -> forall target inst,
  In (TProc target inst) (lex strict s) -> exists a b, s = a ++ inst ++ b.
Proof.
  induction n as [|n IH]; intros s Hn target inst Hin; destruct s as [|c s]; try (cbn in Hn; lia); try destruct Hin.
  rewrite lex_cons in Hin. destruct (lex_step strict c s) as [[ts rest]|] eqn:E; [|destruct Hin].
  pose proof (lex_step_shorter _ _ _ _ _ E) as Hl. cbn [length] in Hn.
  assert (Hs : suffix rest (c :: s) /\ forall target inst, In (TProc target inst) ts -> exists a b, c :: s = a ++ inst ++ b).
  { unfold lex_step in E. destruct (Ascii.eqb c "<").
    - apply read_tag_suffix in E as [H1 H2]. split; [apply suffix_cons, H1|]. intros tg i Hi.
      destruct (H2 tg i Hi) as (a & b & ->). exists (c :: a), b. reflexivity.
    - destruct (read_text strict None false (c :: s)) as [[t r]|] eqn:Et; [|discriminate].
      cbn [option_map fst snd] in E. injection E as <- <-. apply read_text_suffix in Et. split; [exact Et|].
      intros tg i [[=]|[]]. }
  destruct Hs as [[x Hs] Hts]. apply in_app_or in Hin as [Hin|Hin]; [eauto|].
  destruct (IH rest ltac:(lia) target inst Hin) as (a & b & ->).
  exists (x ++ a), b. rewrite Hs, app_assoc. reflexivity.
Qed.

(** ** More input after a token that has been read *)

Lemma has_prefix_ext p : forall s t, has_prefix p s = true -> has_prefix p (s ++ t) = true.
Proof. intros s t H. apply has_prefix_spec in H as [r ->]. rewrite <- app_assoc. apply has_prefix_app. Qed.

Lemma has_prefix_long p : forall s t, length p <= length s -> has_prefix p (s ++ t) = has_prefix p s.
Proof.
  induction p as [|x p IH]; intros s t H; [destruct s; reflexivity|]. destruct s as [|y s]; [cbn in H; lia|].
  cbn [app has_prefix]. destruct (Ascii.eqb x y); [|reflexivity]. apply IH. cbn in H. lia.
Qed.

Lemma index_of_ext p : forall s n t, index_of p s = Some n -> index_of p (s ++ t) = Some n.
Proof.
  induction s as [|c s IH]; intros n t H; cbn [index_of] in H.
  - destruct (has_prefix p []) eqn:E; [|discriminate]. destruct p; [|discriminate E]. injection H as <-. destruct t; reflexivity.
  - cbn [app index_of]. destruct (has_prefix p (c :: s)) eqn:E.
    + change (c :: s ++ t) with ((c :: s) ++ t). rewrite has_prefix_ext by exact E. exact H.
    + destruct (index_of p s) as [m|] eqn:Em; [|discriminate].
      change (c :: s ++ t) with ((c :: s) ++ t). rewrite has_prefix_long, E.
      * rewrite (IH m t eq_refl). exact H.
      * apply index_of_some in Em as (r & Hr & _). rewrite Hr. cbn [length]. rewrite !app_length. lia.
Qed.

Lemma split2_ext sep s a r t : split2 sep s = Some (a, r) -> split2 sep (s ++ t) = Some (a, r ++ t).
Proof.
  unfold split2. destruct (index_of sep s) as [n|] eqn:E; [|discriminate]. intros [= <- <-].
  rewrite (index_of_ext _ _ _ t E). apply index_of_some in E as (x & Hx & Hl).
  assert (Hn : n + length sep <= length s).
  { apply (f_equal (@length ascii)) in Hx. rewrite !app_length, firstn_length in Hx. lia. }
  f_equal. rewrite firstn_app, skipn_app.
  replace (n - length s) with 0 by lia. replace (n + length sep - length s) with 0 by lia.
  cbn [firstn skipn]. rewrite app_nil_r. reflexivity.
Qed.

Lemma after_ext p s r t : after p s = Some r -> after p (s ++ t) = Some (r ++ t).
Proof.
  unfold after. destruct (has_prefix p s) eqn:E; [|discriminate]. intros [= <-].
  rewrite has_prefix_ext by exact E. apply has_prefix_length in E. rewrite skipn_app.
  replace (length p - length s) with 0 by lia. reflexivity.
Qed.

Lemma after_ext_none p c s t : length p = 1 -> after p (c :: s) = None -> after p ((c :: s) ++ t) = None.
Proof.
  unfold after. intros Hp H. rewrite has_prefix_long by (cbn [length]; lia).
  destruct (has_prefix p (c :: s)); [discriminate|reflexivity].
Qed.

Lemma skip_space_ext c s s' t : skip_space s = c :: s' -> skip_space (s ++ t) = (c :: s') ++ t.
Proof.
  induction s as [|d s IH]; cbn [skip_space app]; [discriminate|].
  destruct (xml_space d); [exact IH|]. intros [= -> ->]. reflexivity.
Qed.

Lemma span_ext p : forall s a c r t, span p s = (a, c :: r) -> span p (s ++ t) = (a, (c :: r) ++ t).
Proof.
  induction s as [|d s IH]; intros a c r t; cbn [span app]; [discriminate|].
  destruct (p d); [|intros [= <- <- <-]; reflexivity].
  destruct (span p s) as [x y] eqn:E. intros [= <- ->]. rewrite (IH x c r t eq_refl). reflexivity.
Qed.

Lemma read_name_ext s n r t : read_name s = Some (n, r) ->
  r <> [] /\ read_name (s ++ t) = Some (n, r ++ t).
Proof.
  unfold read_name. destruct (span name_or_high s) as [a b] eqn:E.
  destruct (is_name a) eqn:En; [|discriminate]. destruct b as [|c b]; [discriminate|].
  cbn [andb negb null]. intros [= <- <-]. split; [discriminate|].
  rewrite (span_ext _ _ _ _ _ t E). rewrite En. reflexivity.
Qed.

Lemma entity_ext strict s x r t : entity strict s = Some (x, r) -> entity strict (s ++ t) = Some (x, r ++ t).
Proof.
  assert (Hb : forall p body (o : str -> option str) raw,
      (let (ds, rest) := span p body in
       if null rest then None
       else match after (bs ";") rest with
            | Some rest' => match o ds with
                            | Some t => Some (t, rest')
                            | None => if strict then None else Some (raw ds ++ bs ";", rest') end
            | None => if strict then None else Some (raw ds, rest) end) = Some (x, r) ->
      (let (ds, rest) := span p (body ++ t) in
       if null rest then None
       else match after (bs ";") rest with
            | Some rest' => match o ds with
                            | Some t => Some (t, rest')
                            | None => if strict then None else Some (raw ds ++ bs ";", rest') end
            | None => if strict then None else Some (raw ds, rest) end) = Some (x, r ++ t)).
  { intros p body o raw H. destruct (span p body) as [ds rest] eqn:E. destruct rest as [|c rest]; [discriminate|].
    rewrite (span_ext _ _ _ _ _ t E). cbn [null] in H. cbn [app null].
    change (c :: rest ++ t) with ((c :: rest) ++ t).
    destruct (after (bs ";") (c :: rest)) as [rest'|] eqn:Ea.
    - rewrite (after_ext _ _ _ t Ea). destruct (o ds); [|destruct strict; [discriminate|]];
        injection H as <- <-; reflexivity.
    - rewrite after_ext_none by auto. destruct strict; [discriminate|]. injection H as <- <-. reflexivity. }
  unfold entity. destruct (after (bs "#") s) as [s1|] eqn:E1.
  - rewrite (after_ext _ _ _ t E1). destruct s1 as [|c s1]; [discriminate|].
    rewrite (has_prefix_long _ (c :: s1)) by (cbn; lia). destruct (has_prefix (bs "x") (c :: s1)).
    + apply (Hb is_hex s1 (char_ref true) (fun ds => bs "&#" ++ bs "x" ++ ds)).
    + apply (Hb is_digit (c :: s1) (char_ref false) (fun ds => bs "&#" ++ [] ++ ds)).
  - destruct s as [|c s]; [discriminate|]. rewrite after_ext_none by auto. intros H.
    refine (Hb name_or_high (c :: s) named_entity (fun nm => bs "&" ++ nm) _).
    destruct (span name_or_high (c :: s)) as [nm rest]. destruct (null rest); [discriminate|].
    destruct (after (bs ";") rest); exact H.
Qed.

Lemma text_loop_ext fuel strict q cd t : forall b0 b1 acc s x r,
  text_loop fuel strict q cd b0 b1 acc s = Some (x, r) -> (r <> [] \/ cd = true) ->
  forall fuel', fuel <= fuel' -> text_loop fuel' strict q cd b0 b1 acc (s ++ t) = Some (x, r ++ t).
Proof.
  induction fuel as [|fuel IH]; intros b0 b1 acc s x r H Hr fuel' Hf; [discriminate|].
  destruct fuel' as [|fuel']; [lia|]. cbn [text_loop] in H.
  destruct s as [|b s].
  { destruct cd; [discriminate|]. injection H as _ <-. destruct Hr as [Hr|Hr]; [destruct (Hr eq_refl)|discriminate]. }
  cbn [app text_loop].
  destruct (Ascii.eqb b0 "]" && Ascii.eqb b1 "]" && Ascii.eqb b ">").
  - destruct cd; [|discriminate]. injection H as <- <-. reflexivity.
  - destruct (Ascii.eqb b "<" && negb cd).
    + destruct q; [discriminate|]. injection H as <- <-. reflexivity.
    + destruct (match q with Some q => Ascii.eqb b q | None => false end).
      * injection H as <- <-. reflexivity.
      * destruct (Ascii.eqb b "&" && negb cd).
        -- destruct (entity strict s) as [[t' r']|] eqn:E; [|discriminate].
           rewrite (entity_ext _ _ _ _ t E). eapply IH; eauto. lia.
        -- eapply IH; eauto. lia.
Qed.

Lemma read_text_ext strict q cd s x r t : read_text strict q cd s = Some (x, r) -> (r <> [] \/ cd = true) ->
  read_text strict q cd (s ++ t) = Some (x, r ++ t).
Proof.
  unfold read_text. destruct (text_loop (S (length s)) strict q cd (chr 0) (chr 0) [] s) as [[t' r']|] eqn:E; [|discriminate].
  cbn [bind fst]. destruct (xml_text t') eqn:Ex; [|discriminate]. intros [= <- <-] Hr.
  rewrite (text_loop_ext _ _ _ _ t _ _ _ _ _ _ E Hr) by (rewrite app_length; lia).
  cbn [bind fst]. rewrite Ex. reflexivity.
Qed.

Lemma skip_directive_ext fuel t : forall q d s r, skip_directive fuel q d s = Some r ->
  forall fuel', fuel <= fuel' -> skip_directive fuel' q d (s ++ t) = Some (r ++ t).
Proof.
  induction fuel as [|fuel IH]; intros q d s r H fuel' Hf; [discriminate|].
  destruct fuel' as [|fuel']; [lia|]. apply le_S_n in Hf. cbn [skip_directive] in H.
  destruct s as [|b s]; [discriminate|]. cbn [app skip_directive].
  destruct q as [q|]; [eapply IH; eauto|].
  destruct (Ascii.eqb b ">").
  - destruct d; [injection H as <-; reflexivity | eapply IH; eauto].
  - destruct (Ascii.eqb b "'" || (code b =? 34)%N); [eapply IH; eauto|].
    destruct (Ascii.eqb b "<"); [|eapply IH; eauto].
    destruct (has_prefix (bs "!--") s) eqn:Ep.
    + rewrite has_prefix_ext by exact Ep.
      destruct (split2 (bs "-->") (skipn 3 s)) as [[a r']|] eqn:E; [|discriminate].
      apply has_prefix_length in Ep. rewrite skipn_app. replace (3 - length s) with 0 by (cbn in Ep; lia).
      change (skipn 0 t) with t. rewrite (split2_ext _ _ _ _ t E). eapply IH; eauto.
    + destruct (has_prefix (bs "!--") (s ++ t)) eqn:Et; [|eapply IH; eauto]. exfalso.
      assert (Hs : length s < 3).
      { destruct (Nat.lt_ge_cases (length s) 3) as [Hl|Hl]; [exact Hl|].
        rewrite has_prefix_long in Et by exact Hl. congruence. }
      destruct s as [|c1 [|c2 [|c3 s]]]; [| | | cbn in Hs; lia]; clear Hs Ep;
        change (bs "!--") with ["!"; "-"; "-"]%char in Et.
      * destruct fuel; discriminate H.
      * cbn [app has_prefix] in Et. destruct (Ascii.eqb_spec "!" c1) as [<-|]; [|discriminate].
        destruct fuel as [|[|fuel]]; discriminate H.
      * cbn [app has_prefix] in Et. destruct (Ascii.eqb_spec "!" c1) as [<-|]; [|discriminate].
        destruct (Ascii.eqb_spec "-" c2) as [<-|]; [|discriminate].
        destruct fuel as [|[|[|fuel]]]; discriminate H.
Qed.

Lemma attr_value_ext strict s r t : attr_value strict s = Some r -> r <> [] ->
  attr_value strict (s ++ t) = Some (r ++ t).
Proof.
  unfold attr_value. destruct s as [|q s]; [discriminate|]. cbn [app].
  destruct (Ascii.eqb q "'" || (code q =? 34)%N).
  - destruct (read_text strict (Some q) false s) as [[x r']|] eqn:E; [|discriminate]. intros [= <-] Hr.
    rewrite (read_text_ext _ _ _ _ _ _ t E) by (left; exact Hr). reflexivity.
  - destruct strict; [discriminate|]. intros H _.
    match type of H with context [span ?p (q :: s)] => set (P := p) in *; destruct (span P (q :: s)) as [v rest] eqn:E end.
    destruct rest as [|c rest]; [discriminate|]. injection H as <-.
    change (q :: s ++ t) with ((q :: s) ++ t). rewrite (span_ext _ _ _ _ _ t E). reflexivity.
Qed.

Lemma attributes_nil fuel strict : attributes fuel strict [] = None.
Proof. destruct fuel; reflexivity. Qed.

Lemma attributes_ext fuel strict t : forall s a r, attributes fuel strict s = Some (a, r) ->
  forall fuel', fuel <= fuel' -> attributes fuel' strict (s ++ t) = Some (a, r ++ t).
Proof.
  induction fuel as [|fuel IH]; intros s a r H fuel' Hf; [discriminate|].
  destruct fuel' as [|fuel']; [lia|]. apply le_S_n in Hf. cbn [attributes] in H.
  cbn [attributes]. destruct (skip_space s) as [|c s0] eqn:Es.
  { discriminate H. }
  rewrite (skip_space_ext _ _ _ t Es).
  destruct (after (bs "/") (c :: s0)) as [s1|] eqn:E1.
  - rewrite (after_ext _ _ _ t E1). destruct (after (bs ">") s1) as [s2|] eqn:E2; [|discriminate].
    rewrite (after_ext _ _ _ t E2). cbn [option_map] in *. injection H as <- <-. reflexivity.
  - rewrite after_ext_none by auto. destruct (after (bs ">") (c :: s0)) as [s1|] eqn:E2.
    + rewrite (after_ext _ _ _ t E2). injection H as <- <-. reflexivity.
    + rewrite after_ext_none by auto.
      destruct (read_name (c :: s0)) as [[n r0]|] eqn:E3; [|discriminate].
      apply (read_name_ext _ _ _ t) in E3 as [_ E3]. rewrite E3. cbn [bind snd] in *.
      destruct (skip_space r0) as [|d r1] eqn:Er.
      { cbn [after has_prefix bs] in H. rewrite orb_true_r in H. discriminate H. }
      rewrite (skip_space_ext _ _ _ t Er).
      destruct (after (bs "=") (d :: r1)) as [s2|] eqn:E4.
      * rewrite (after_ext _ _ _ t E4).
        destruct (attr_value strict (skip_space s2)) as [s3|] eqn:E5; [|discriminate]. cbn [bind] in H.
        destruct s3 as [|x s3]; [rewrite attributes_nil in H; discriminate|].
        destruct (skip_space s2) as [|y s4] eqn:E6; [discriminate|].
        rewrite (skip_space_ext _ _ _ t E6). rewrite (attr_value_ext _ _ _ t E5) by discriminate.
        cbn [bind]. eapply IH; eauto.
      * rewrite after_ext_none by auto. cbn [null] in *. rewrite orb_false_r in *.
        destruct strict; [discriminate|]. eapply IH; eauto.
Qed.

Lemma read_tag_ext strict s ts r t : read_tag strict s = Some (ts, r) -> read_tag strict (s ++ t) = Some (ts, r ++ t).
Proof.
  destruct s as [|c s]; [discriminate|].
  unfold read_tag. destruct (after (bs "/") (c :: s)) as [s1|] eqn:E1; [|destruct (after (bs "?") (c :: s)) as [s1|] eqn:E2;
    [|destruct (after (bs "!") (c :: s)) as [s1|] eqn:E3]].
  - rewrite (after_ext _ _ _ t E1). unfold read_end_tag.
    destruct (read_name s1) as [[n r0]|] eqn:En; [|discriminate].
    apply (read_name_ext _ _ _ t) in En as [_ En]. rewrite En. cbn [bind fst snd].
    destruct (skip_space r0) as [|x r1] eqn:Er; [discriminate|]. rewrite (skip_space_ext _ _ _ t Er).
    destruct (after (bs ">") (x :: r1)) as [s2|] eqn:Ea; [|discriminate]. rewrite (after_ext _ _ _ t Ea).
    cbn [bind]. destruct (split_name n). intros [= <- <-]. reflexivity.
  - rewrite after_ext_none by auto. rewrite (after_ext _ _ _ t E2). unfold read_proc_inst.
    destruct (read_name s1) as [[n r0]|] eqn:En; [|discriminate].
    apply (read_name_ext _ _ _ t) in En as [_ En]. rewrite En. cbn [bind fst snd].
    destruct (skip_space r0) as [|x r1] eqn:Er; [discriminate|]. rewrite (skip_space_ext _ _ _ t Er).
    destruct (split2 (bs "?>") (x :: r1)) as [[a b]|] eqn:Es; [|discriminate]. rewrite (split2_ext _ _ _ _ t Es).
    cbn [bind fst snd]. destruct (_ && _ && _); [discriminate|]. intros [= <- <-]. reflexivity.
  - rewrite !after_ext_none by auto. rewrite (after_ext _ _ _ t E3).
    destruct s1 as [|d s1]; [discriminate|].
    destruct (after (bs "-") (d :: s1)) as [s2|] eqn:E4; [|destruct (after (bs "[") (d :: s1)) as [s2|] eqn:E5].
    + rewrite (after_ext _ _ _ t E4). unfold read_comment. destruct (after (bs "-") s2) as [s3|] eqn:E6; [|discriminate].
      rewrite (after_ext _ _ _ t E6). cbn [bind]. destruct (split2 (bs "--") s3) as [[a b]|] eqn:Es; [|discriminate].
      rewrite (split2_ext _ _ _ _ t Es). cbn [bind snd]. destruct (after (bs ">") b) as [s4|] eqn:E7; [|discriminate].
      rewrite (after_ext _ _ _ t E7). cbn [bind]. intros [= <- <-]. reflexivity.
    + rewrite after_ext_none by auto. rewrite (after_ext _ _ _ t E5). unfold read_cdata.
      destruct (after (bs "CDATA[") s2) as [s3|] eqn:E6; [|discriminate]. rewrite (after_ext _ _ _ t E6).
      cbn [bind]. destruct (read_text strict None true s3) as [[x r']|] eqn:Et; [|discriminate].
      rewrite (read_text_ext _ _ _ _ _ _ t Et) by (right; reflexivity). cbn [bind fst snd]. intros [= <- <-]. reflexivity.
    + rewrite !after_ext_none by auto. unfold read_directive. cbn [app].
      destruct (skip_directive (length s1) None 0 s1) as [r'|] eqn:Ed; [|discriminate].
      rewrite (skip_directive_ext _ t _ _ _ _ Ed) by (rewrite app_length; lia). cbn [bind].
      intros [= <- <-]. reflexivity.
  - rewrite !after_ext_none by auto. unfold read_start_tag.
    destruct (read_name (c :: s)) as [[n r0]|] eqn:En; [|discriminate].
    apply (read_name_ext _ _ _ t) in En as [_ En]. rewrite En. cbn [bind fst snd].
    destruct (attributes (S (length r0)) strict r0) as [[a b]|] eqn:Ea; [|discriminate].
    rewrite (attributes_ext _ _ t _ _ _ Ea) by (rewrite app_length; lia).
    cbn [bind fst snd]. destruct (split_name n). intros [= <- <-]. reflexivity.
Qed.

(** The tokens of a longer input: the same, but for a last text that may go on. *)
Inductive grows : list token -> list token -> Prop :=
| grows_end ts : grows [] ts
| grows_text x ts : grows [TChar x] ts
| grows_more a ts ts' : grows ts ts' -> grows (a :: ts) (a :: ts').

Lemma grows_app a ts ts' : grows ts ts' -> grows (a ++ ts) (a ++ ts').
Proof. induction a; cbn [app]; [auto | intros; constructor; auto]. Qed.

Lemma lex_grows strict t : forall n s, length s <= n -> grows (lex strict s) (lex strict (s ++ t)).
Proof.
  induction n as [|n IH]; intros s Hn; destruct s as [|c s]; try (cbn in Hn; lia); try constructor.
  cbn [app]. rewrite !lex_cons. destruct (lex_step strict c s) as [[ts rest]|] eqn:E; [|constructor].
  pose proof (lex_step_shorter _ _ _ _ _ E) as Hl. cbn [length] in Hn.
  unfold lex_step in *. destruct (Ascii.eqb c "<").
  - rewrite (read_tag_ext _ _ _ _ t E). apply grows_app, IH. lia.
  - destruct (read_text strict None false (c :: s)) as [[x r]|] eqn:Et; [|discriminate].
    cbn [option_map fst snd] in E. injection E as <- <-. destruct r as [|d r].
    + cbn [app lex lex_fuel length]. apply grows_text.
    + change (c :: s ++ t) with ((c :: s) ++ t).
      rewrite (read_text_ext _ _ _ _ _ _ t Et) by (left; discriminate). cbn [option_map fst snd].
      apply grows_app, IH. lia.
Qed.

Lemma feed_text fuel strict leaves x : forall f n, feed fuel strict leaves (TChar x) f <> Done n.
Proof. destruct fuel, f as [|[[sp nm] k] f]; cbn; discriminate. Qed.

Lemma read_element_grows strict leaves ts ts' : grows ts ts' -> forall f n,
  read_element strict leaves ts f = Some n -> read_element strict leaves ts' f = Some n.
Proof.
  induction 1 as [ts|x ts|a ts ts' H IH]; intros f n; cbn [read_element]; [discriminate| |].
  - pose proof (feed_text (length f) strict leaves x f) as Hf.
    destruct (feed (length f) strict leaves (TChar x) f) as [m|f'|]; [destruct (Hf m eq_refl)|discriminate|discriminate].
  - destruct (feed (length f) strict leaves a f) as [m|f'|]; auto.
Qed.

Lemma next_token_grows ts ts' a r : grows ts ts' -> next_token ts = Some (a, r) ->
  (exists x, a = TChar x) \/ (exists r', next_token ts' = Some (a, r') /\ grows r r').
Proof.
  induction 1 as [ts|x ts|b ts ts' H IH]; cbn [next_token]; intros E.
  - discriminate.
  - destruct (blank x); [discriminate|]. injection E as <- <-. eauto.
  - destruct b as [sp nm|sp nm|x|tg i|]; try (injection E as <- <-; right; eexists; split; [reflexivity|exact H]).
    destruct (blank x); [auto|]. injection E as <- <-. eauto.
Qed.

Lemma read_ofx_grows strict leaves ts ts' n : grows ts ts' ->
  read_ofx strict leaves ts = Some n -> read_ofx strict leaves ts' = Some n.
Proof.
  intros Hg. unfold read_ofx. destruct (next_token ts) as [[a r]|] eqn:E; [|discriminate].
  cbn [bind fst snd]. intros H. destruct (next_token_grows _ _ _ _ Hg E) as [(x & ->)|(r' & -> & Hr)]; [discriminate|].
  cbn [bind fst snd]. destruct a as [sp nm|sp nm|x|tg i|]; try discriminate.
  destruct (str_eqb nm (bs "OFX")); [|discriminate]. eapply read_element_grows; eauto.
Qed.

Lemma read_xml_headers_grows ts ts' v r : grows ts ts' -> read_xml_headers ts = Some (v, r) ->
  exists r', read_xml_headers ts' = Some (v, r') /\ grows r r'.
Proof.
  intros Hg. unfold read_xml_headers. destruct (next_token ts) as [[a r1]|] eqn:E; [|discriminate].
  cbn [bind fst snd]. intros H. destruct (next_token_grows _ _ _ _ Hg E) as [(x & ->)|(r1' & -> & Hr)]; [discriminate|].
  cbn [bind fst snd]. destruct a as [sp nm|sp nm|x|tg i|]; try discriminate.
  destruct (negb (str_eqb tg (bs "xml"))); [discriminate|].
  destruct (next_token r1) as [[b r2]|] eqn:E2; [|discriminate]. cbn [bind fst snd] in H.
  destruct (next_token_grows _ _ _ _ Hr E2) as [(x & ->)|(r2' & -> & Hr2)]; [discriminate|].
  cbn [bind fst snd]. destruct b as [sp nm|sp nm|x|tg2 i2|]; try discriminate.
  destruct (negb (str_eqb tg2 (bs "OFX"))); [discriminate|].
  destruct (xml_header i2) as [v'|]; [|discriminate]. cbn [bind] in *. injection H as <- <-. eauto.
Qed.

(** ** Whole documents *)

Lemma index_of_end p : forall s n, index_of p s = Some n -> n + length p <= length s.
Proof.
  intros s n H. apply index_of_some in H as (r & Hr & Hl). apply (f_equal (@length ascii)) in Hr.
  rewrite !app_length, firstn_length in Hr. lia.
Qed.

(** An occurrence that is not in the first part ends after it. *)
Lemma index_of_late p w u n : index_of p w = None -> index_of p (w ++ u) = Some n -> length w < n + length p.
Proof.
  intros Hw Hu. destruct (Nat.lt_ge_cases (length w) (n + length p)) as [H|H]; [exact H|]. exfalso.
  apply index_of_some in Hu as (r & Hr & Hl). apply (index_of_none p w Hw (firstn n w) (skipn (n + length p) w)).
  assert (E : firstn (n + length p) (w ++ u) = firstn (n + length p) w).
  { rewrite firstn_app. replace (n + length p - length w) with 0 by lia. cbn [firstn]. apply app_nil_r. }
  assert (Ea : firstn n (w ++ u) = firstn n w).
  { rewrite firstn_app. replace (n - length w) with 0 by lia. cbn [firstn]. apply app_nil_r. }
  rewrite Ea in Hr.
  assert (E2 : firstn (n + length p) (w ++ u) = firstn n w ++ p).
  { rewrite Hr, app_assoc. replace (n + length p) with (length (firstn n w ++ p)) by (rewrite app_length, firstn_length; lia).
    rewrite firstn_app, firstn_all, Nat.sub_diag. cbn [firstn]. apply app_nil_r. }
  rewrite <- (firstn_skipn (n + length p) w) at 1. rewrite <- E, E2, <- app_assoc. reflexivity.
Qed.

Lemma window_app (p t : str) : firstn window (p ++ t) = firstn window p ++ firstn (window - length p) t.
Proof. apply firstn_app. Qed.

Lemma guess_sgml_ext p t : guess_xml p = false -> guess_xml (p ++ t) = false.
Proof.
  unfold guess_xml. rewrite window_app. set (w := firstn window p). set (u := firstn (window - length p) t).
  destruct (index_of (bs "OFXHEADER:") w) as [i|] eqn:Ei; [|discriminate].
  rewrite (index_of_ext _ _ _ u Ei). destruct (index_of (bs "OFXHEADER=") w) as [j|] eqn:Ej.
  - rewrite (index_of_ext _ _ _ u Ej). auto.
  - intros _. destruct (index_of (bs "OFXHEADER=") (w ++ u)) as [j|] eqn:Eu; [|reflexivity].
    apply index_of_late in Eu; [|exact Ej]. apply index_of_end in Ei. cbn [bs list_ascii_of_string length] in *.
    apply Nat.leb_gt. lia.
Qed.

Lemma guess_xml_ext p t : guess_xml p = true -> (exists a b, p = a ++ bs "OFXHEADER=" ++ b) -> guess_xml (p ++ t) = true.
Proof.
  intros Hg (a & b & Hp). unfold guess_xml in *. rewrite window_app.
  destruct (Nat.le_ge_cases window (length p)) as [Hl|Hl].
  { replace (window - length p) with 0 by lia. cbn [firstn]. rewrite app_nil_r. exact Hg. }
  assert (Ew : firstn window p = p) by (apply firstn_all2; exact Hl). rewrite Ew in *.
  set (u := firstn (window - length p) t).
  destruct (index_of (bs "OFXHEADER=") p) as [j|] eqn:Ej; [|exfalso; apply (index_of_none _ _ Ej a b); exact Hp].
  rewrite (index_of_ext _ _ _ u Ej). destruct (index_of (bs "OFXHEADER:") p) as [i|] eqn:Ei.
  - rewrite (index_of_ext _ _ _ u Ei). exact Hg.
  - destruct (index_of (bs "OFXHEADER:") (p ++ u)) as [i|] eqn:Eu; [|reflexivity].
    apply index_of_late in Eu; [|exact Ei]. apply index_of_end in Ej. cbn [bs list_ascii_of_string length] in *.
    apply Nat.leb_le. lia.
Qed.

Lemma attributes_has l s name value : attributes_text l s -> In (name, value) l -> exists a b, s = a ++ (name ++ bs "=") ++ b.
Proof.
  induction 1 as [w Hw|w n v l rest Hw Hl Hv Hr IH]; [intros []|]. intros [[= -> ->]|H].
  - exists w. eexists. rewrite <- app_assoc. reflexivity.
  - destruct (IH H) as (a & b & ->). exists (w ++ n ++ bs "=" ++ [chr 34] ++ v ++ [chr 34] ++ a), b.
    rewrite <- !app_assoc. reflexivity.
Qed.

Lemma read_xml_marked s v ts : read_xml_headers (lex true s) = Some (v, ts) ->
  exists a b, s = a ++ bs "OFXHEADER=" ++ b.
Proof.
  intros H. apply read_xml_iff in H as (b1 & decl & b2 & inst & E & _ & _ & Hi).
  destruct (xml_header_content inst v Hi) as (l & Hl & Hin & _).
  destruct (attributes_has _ _ _ _ Hl Hin) as (a & b & Ei).
  destruct (lex_proc true (length s) s (le_n _) (bs "OFX") inst) as (a' & b' & Es).
  { rewrite E. apply in_or_app. right. right. apply in_or_app. right. left. reflexivity. }
  exists (a' ++ a), (b ++ b'). rewrite Es, Ei. rewrite <- !app_assoc. reflexivity.
Qed.

Lemma read_sgml_ext s v rest t : read_sgml_headers s = Some (v, rest) -> read_sgml_headers (s ++ t) = Some (v, rest ++ t).
Proof.
  unfold read_sgml_headers. destruct (index_of (bs "<") s) as [i|] eqn:E; [|discriminate].
  rewrite (index_of_ext _ _ _ t E). cbn [bind]. destruct (Nat.leb window i); [discriminate|].
  apply index_of_end in E. cbn [bs list_ascii_of_string length] in E.
  assert (Ef : firstn (S i) (s ++ t) = firstn (S i) s).
  { rewrite firstn_app. replace (S i - length s) with 0 by lia. cbn [firstn]. apply app_nil_r. }
  rewrite Ef. destruct (match_entries sgml_entries (firstn (S i) s)) as [vs|]; [|discriminate]. cbn [bind].
  destruct (check_sgml vs); [|discriminate]. cbn [bind]. intros [= <- <-].
  rewrite skipn_app. replace (i - length s) with 0 by lia. reflexivity.
Qed.

Theorem read_document_ext p d t : read_document p = Some d -> read_document (p ++ t) = Some d.
Proof.
  unfold read_document. destruct (guess_xml p) eqn:Eg.
  - destruct (read_xml_headers (lex true p)) as [[v ts]|] eqn:Eh; [|discriminate].
    rewrite (guess_xml_ext p t Eg (read_xml_marked p v ts Eh)).
    destruct (read_xml_headers_grows _ _ _ _ (lex_grows true t (length p) p (le_n _)) Eh) as (ts' & -> & Hg).
    cbn [bind fst snd]. destruct (read_ofx true [] ts) as [n|] eqn:En; [|discriminate].
    rewrite (read_ofx_grows _ _ _ _ _ Hg En). auto.
  - rewrite (guess_sgml_ext p t Eg).
    destruct (read_sgml_headers p) as [[v rest]|] eqn:Eh; [|discriminate].
    rewrite (read_sgml_ext _ _ _ t Eh). cbn [bind fst snd].
    destruct (read_ofx false ofx_leaf_elements (lex false rest)) as [n|] eqn:En; [|discriminate].
    rewrite (read_ofx_grows _ _ _ _ _ (lex_grows false t (length rest) rest (le_n _)) En). auto.
Qed.

Theorem decode_ext e p r t : decode_response e p = Some r -> decode_response e (p ++ t) = Some r.
Proof.
  unfold decode_response. destruct (read_document p) as [d|] eqn:E; [|discriminate].
  rewrite (read_document_ext _ _ t E). auto.
Qed.

Theorem parse_ext e p r err t : parse_response e p = (Some r, err) -> parse_response e (p ++ t) = (Some r, err).
Proof.
  unfold parse_response. destruct (decode_response e p) as [r'|] eqn:E; [|discriminate].
  rewrite (decode_ext _ _ _ t E). auto.
Qed.

(** ** Documents cut short *)

Lemma read_ofx_cut st L w b ts : xml_ws w -> (exists r, b = "<"%char :: r) ->
  lex st b = TStart [] (bs "OFX") :: ts -> read_element st L ts [([], bs "OFX", [])] = None ->
  read_ofx st L (lex st (w ++ b)) = None.
Proof.
  intros Hw [r ->] E1 E2.
  assert (E : read_ofx st L (lex st ("<"%char :: r)) = None).
  { rewrite E1. unfold read_ofx. cbn [next_token bind fst snd]. rewrite str_eqb_refl. exact E2. }
  destruct w as [|c w]; [exact E|].
  destruct (lex_blank st (c :: w) r Hw) as (w' & Hw' & El); [discriminate|].
  rewrite El. unfold read_ofx in *. rewrite next_token_ws by exact Hw'. exact E.
Qed.

Lemma spells_cut_start omit nest nm kids b : spells omit nest (Elem nm kids) (b ++ bs ">") -> exists r, b = "<"%char :: r.
Proof.
  intros H. pose proof (spells_start _ _ _ _ H) as [r Hr]. destruct b as [|c b].
  - apply (f_equal (hd " "%char)) in Hr. cbn in Hr. discriminate.
  - apply (f_equal (hd " "%char)) in Hr. cbn in Hr. subst c. eauto.
Qed.

Lemma spelled_cut v crlf h (omit : str -> Prop) w b kids :
  known_version v -> write_header v crlf = Some h ->
  (forall nm, omit nm -> (v < OfxVersion200)%N /\ simple_element nm) ->
  xml_ws w -> ((v < OfxVersion200)%N -> w = []) ->
  kids <> [] -> Forall (fun k => is_elem k = true) kids ->
  spells omit container (Elem (bs "OFX") kids) (b ++ bs ">") ->
  read_document (h ++ w ++ b) = None.
Proof.
  intros Hv Hh Homit Hw Hw0 Hk Hel Hs. pose proof (spells_cut_start _ _ _ _ _ Hs) as Hlt. unfold read_document.
  destruct (known_cases v Hv) as [Hver|Hver].
  - assert (Hlow : (v < OfxVersion200)%N) by (unfold OfxVersion200, OfxVersion160 in *; lia).
    rewrite (Hw0 Hlow). cbn [app].
    destruct (written_sgml_read v crlf h b Hver Hh) as [E1 E2].
    { destruct Hlt as [r ->]. eexists. reflexivity. }
    rewrite E1, E2. cbn [bind fst snd].
    destruct (spells_cut false ofx_leaf_elements omit container (bs "OFX") kids b) as (ts & El & Er); auto.
    { intros nm Hnm. split; [reflexivity|]. apply simple_element_iff, Homit, Hnm. }
    pose proof (read_ofx_cut false ofx_leaf_elements [] b ts (Forall_nil _) Hlt El Er) as E.
    cbn [app] in E. rewrite E. reflexivity.
  - destruct (written_xml v crlf h (w ++ b) Hver Hh) as [E1 E2]. rewrite E1, E2. cbn [bind fst snd].
    assert (Hhigh : ~ (v < OfxVersion200)%N) by lia.
    destruct (spells_cut true [] omit container (bs "OFX") kids b) as (ts & El & Er); auto.
    { intros nm Hnm. exfalso. apply Hhigh, (Homit nm Hnm). }
    { intros nm _. reflexivity. }
    assert (Hww : xml_ws (line_end crlf ++ w)) by (apply Forall_app; split; [apply line_end_ws | exact Hw]).
    pose proof (read_ofx_cut true [] (line_end crlf ++ w) b ts Hww Hlt El Er) as E.
    rewrite <- app_assoc in E. rewrite E. reflexivity.
Qed.

Lemma sgml_spelled_cut v h b kids :
  sgml_header_for v h -> length h < 1024 ->
  kids <> [] -> Forall (fun k => is_elem k = true) kids ->
  spells simple_element (fun nm => ~ simple_element nm) (Elem (bs "OFX") kids) (b ++ bs ">") ->
  read_document (h ++ b) = None.
Proof.
  intros Hh Hl Hk Hel Hs. destruct (spells_cut_start _ _ _ _ _ Hs) as [r Hr]. unfold read_document.
  destruct (sgml_header_complete v h r Hh Hl) as [E1 E2]. change (bs "<" ++ r) with ("<"%char :: r) in *.
  rewrite <- Hr in E1, E2. apply guess_sgml_iff in E1. rewrite E1, E2. cbn [bind fst snd].
  destruct (spells_cut false ofx_leaf_elements simple_element (fun nm => ~ simple_element nm) (bs "OFX") kids b) as (ts & El & Er); auto.
  { intros nm Hnm. split; [reflexivity|]. apply simple_element_iff, Hnm. }
  { intros nm Hnm. apply container_iff in Hnm. exact Hnm. }
  pose proof (read_ofx_cut false ofx_leaf_elements [] b ts (Forall_nil _) (ex_intro _ r Hr) El Er) as E.
  cbn [app] in E. rewrite E. reflexivity.
Qed.

(** The last byte of a spelled element that contains others. *)
Lemma spells_last omit nest nm kids b : kids <> [] -> Forall (fun k => is_elem k = true) kids ->
  spells omit nest (Elem nm kids) b -> exists b0, b = b0 ++ bs ">".
Proof.
  intros Hne He Hb.
  assert (Ht : forall t, text_kids t <> kids).
  { intros [|c t] E; [apply Hne; rewrite <- E; reflexivity|]. subst kids. inversion He; discriminate. }
  inversion Hb as [nm' t raw Hn Hx Hr E|nm' t raw Hn Hx Hr Ho E|nm' kids' w b' Hn Hnn Hw Hk E1 E2]; subst.
  - exfalso. apply (Ht t). reflexivity.
  - exfalso. apply (Ht t). reflexivity.
  - unfold end_tag. exists (start_tag nm ++ w ++ b' ++ bs "</" ++ nm). rewrite <- !app_assoc. reflexivity.
Qed.

(** It is enough to cut off one byte. *)
Lemma cut_enough p x s : p ++ x = s ++ bs ">" -> x <> [] -> read_document s = None -> read_document p = None.
Proof.
  intros E Hx Hs. destruct (read_document p) as [d|] eqn:Ed; [|reflexivity]. exfalso.
  destruct (exists_last Hx) as (x' & c & ->). rewrite app_assoc in E. apply app_inj_tail in E as [E _].
  apply (read_document_ext p d x') in Ed. rewrite E in Ed. congruence.
Qed.

Theorem spelled_prefix v crlf h (omit : str -> Prop) w b kids p x :
  known_version v -> write_header v crlf = Some h ->
  (forall nm, omit nm -> (v < OfxVersion200)%N /\ simple_element nm) ->
  xml_ws w -> ((v < OfxVersion200)%N -> w = []) ->
  kids <> [] -> Forall (fun k => is_elem k = true) kids ->
  spells omit container (Elem (bs "OFX") kids) b ->
  h ++ w ++ b = p ++ x -> x <> [] -> read_document p = None.
Proof.
  intros Hv Hh Ho Hw Hw0 Hk He Hs E Hx. destruct (spells_last _ _ _ _ _ Hk He Hs) as [b0 ->].
  apply (cut_enough p x (h ++ w ++ b0)); [rewrite <- E, <- !app_assoc; reflexivity | exact Hx |].
  eapply spelled_cut; eauto.
Qed.

Theorem sgml_spelled_prefix v h b kids p x :
  sgml_header_for v h -> length h < 1024 ->
  kids <> [] -> Forall (fun k => is_elem k = true) kids ->
  spells simple_element (fun nm => ~ simple_element nm) (Elem (bs "OFX") kids) b ->
  h ++ b = p ++ x -> x <> [] -> read_document p = None.
Proof.
  intros Hh Hl Hk He Hs E Hx. destruct (spells_last _ _ _ _ _ Hk He Hs) as [b0 ->].
  apply (cut_enough p x (h ++ b0)); [rewrite <- E, <- !app_assoc; reflexivity | exact Hx |].
  eapply sgml_spelled_cut; eauto.
Qed.

Theorem printed_prefix v crlf h leaf st k p x :
  known_version v -> write_header v crlf = Some h ->
  (st_unclosed st = [] \/ ((v < OfxVersion200)%N /\ st_unclosed st = ofx_leaf_elements)) ->
  k <> [] -> docs leaf k ->
  h ++ print st true 0 (Elem (bs "OFX") k) = p ++ x -> x <> [] -> read_document p = None.
Proof.
  intros Hv Hh Hst Hk Hd E Hx.
  assert (Hroot : document leaf container (Elem (bs "OFX") k)) by (apply root_document, Hd).
  assert (Hnest : forall nm, container nm -> member nm (st_unclosed st) = false).
  { intros nm Hc. destruct Hst as [->|[_ ->]]; [reflexivity|].
    destruct (member nm ofx_leaf_elements) eqn:E1; [|reflexivity]. apply leaves_upper in E1. unfold container in Hc. congruence. }
  destruct (print_spells st leaf container Hnest _ Hroot true 0) as (n' & w & b & Hr & Hw & [Ew [b' Eb]] & Ep & Hs).
  assert (Hw0 : w = []) by (rewrite Ew; unfold line_start; destruct (st_indent st); reflexivity).
  apply repaired_inv in Hr as [(s & m & E1 & _)|(k' & -> & Hr)].
  { exfalso. subst k. destruct s; [contradiction|]. apply Forall_inv in Hd. apply document_elem in Hd. discriminate. }
  assert (Hk' : k' <> []) by (destruct Hr; [contradiction | discriminate]).
  rewrite Ep in E.
  apply (spelled_prefix v crlf h (fun nm => member nm (st_unclosed st) = true) w b k' p x); auto.
  - intros nm Hnm. destruct Hst as [Hst|[H1 H2]].
    + rewrite Hst in Hnm. discriminate.
    + split; auto. rewrite H2 in Hnm. apply simple_element_iff, leaves_upper, Hnm.
  - eapply repaired_elems_all; eauto.
Qed.

Lemma known_version_dec v : known_version v \/ ~ known_version v.
Proof.
  destruct (write_header v false) as [h|] eqn:E; [left|right]; rewrite (known_version_iff v false); [eauto|].
  intros [h H]. congruence.
Qed.

Theorem response_prefix e r s p x : response_named r -> response_marshal r = Some s ->
  s = p ++ x -> x <> [] -> decode_response e p = None.
Proof.
  intros Hn Hm E Hx. unfold decode_response. destruct (known_version_dec (rs_version r)) as [Hv|Hv].
  - enough (read_document p = None) as -> by reflexivity.
    unfold response_marshal in Hm. destruct (response_tree r) as [t|] eqn:Et; [|discriminate]. cbn [bind] in Hm.
    destruct (known_header (rs_version r) false Hv) as [h Hh]. unfold header_or_nothing in Hm. rewrite Hh in Hm.
    apply Some_inj in Hm. subst s.
    destruct (response_doc_any r t Hn Et) as (k & -> & Hk & Hd).
    apply (printed_prefix (rs_version r) false h _ (mkStyle true false []) k p x Hv Hh (or_introl eq_refl) Hk Hd E Hx).
  - destruct (response_unknown r s Hv Hm) as [y Hy].
    fold (decode_response e p). destruct (decode_response e p) as [r'|] eqn:Ed; [|reflexivity]. exfalso.
    apply (decode_ext e p r' x) in Ed. rewrite <- E, Hy, headerless in Ed. discriminate.
Qed.

Theorem request_prefix q s q' p x : request_marshal q = Some (s, q') -> known_version (rq_version q) ->
  s = p ++ x -> x <> [] -> read_document p = None.
Proof.
  intros Hm Hv E Hx. unfold request_marshal in Hm. destruct (request_tree q) as [[t q1]|] eqn:Et; [|discriminate].
  cbn [bind fst snd] in Hm. destruct (known_header (rq_version q) (rq_cr q) Hv) as [h Hh].
  unfold header_or_nothing in Hm. rewrite Hh in Hm. apply Some_inj in Hm.
  assert (E1 : h ++ print (request_style q) true 0 t = s) by congruence.
  destruct (request_doc_any q t q1 Et) as (k & -> & Hk & Hd).
  eapply printed_prefix; [exact Hv | exact Hh | apply request_style_unclosed | exact Hk | exact Hd | | exact Hx].
  congruence.
Qed.
