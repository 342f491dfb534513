(** The scanner reads back what spells a tree. *)
From Coq Require Import Lia ZifyBool ZifyNat ZifyN Bool List.
From Verif Require Import GoStr GoStrFacts SpecStr Utf8 Codec CodecFacts CodecSim Xml SpecXml.

Ltac Zify.zify_post_hook ::= Z.to_euclidean_division_equations.

(** ** UTF-8 *)

Lemma xml_unicode r : xml_code r -> unicode_code r.
Proof. unfold xml_code, unicode_code. lia. Qed.

Lemma decode_rune_char r : unicode_code r -> exists c t, utf8_char r = c :: t /\
  forall s, decode_rune c (t ++ s) = (Some r, c :: t, s).
Proof.
  intros H. unfold unicode_code in H. unfold utf8_char.
  destruct (r <? 128)%N eqn:E1; [|destruct (r <? 2048)%N eqn:E2; [|destruct (r <? 65536)%N eqn:E3]].
  - exists (chr r), []. split; [reflexivity|]. intros s. cbn [app]. unfold decode_rune.
    rewrite code_chr by lia. rewrite E1. reflexivity.
  - exists (chr (192 + r / 64)), [chr (128 + r mod 64)]. split; [reflexivity|]. intros s. cbn [app].
    unfold decode_rune, seq2, cont, between, rune2. rewrite !code_chr by lia.
    replace (192 + r / 64 <? 128)%N with false by lia.
    match goal with |- context [if ?b then (Some ?x, _, _) else _] => replace b with true by lia; replace x with r by lia end.
    reflexivity.
  - exists (chr (224 + r / 4096)), [chr (128 + r / 64 mod 64); chr (128 + r mod 64)]. split; [reflexivity|].
    intros s. cbn [app].
    unfold decode_rune, seq2, seq3, cont, between, rune2, rune3. rewrite !code_chr by lia.
    replace (224 + r / 4096 <? 128)%N with false by lia.
    match goal with |- context [if ?b then (Some ?x, _, _) else _] => replace b with false by lia end.
    match goal with |- context [if ?b then (Some ?x, _, _) else _] => replace b with true by lia; replace x with r by lia end.
    reflexivity.
  - exists (chr (240 + r / 262144)), [chr (128 + r / 4096 mod 64); chr (128 + r / 64 mod 64); chr (128 + r mod 64)].
    split; [reflexivity|]. intros s. cbn [app].
    unfold decode_rune, seq2, seq3, seq4, cont, between, rune2, rune3, rune4. rewrite !code_chr by lia.
    replace (240 + r / 262144 <? 128)%N with false by lia.
    match goal with |- context [if ?b then (Some ?x, _, _) else _] => replace b with false by lia end.
    match goal with |- context [if ?b then (Some ?x, _, _) else _] => replace b with false by lia end.
    match goal with |- context [if ?b then (Some ?x, _, _) else _] => replace b with true by lia; replace x with r by lia end.
    reflexivity.
Qed.

Lemma utf8_char_length r : 1 <= length (utf8_char r).
Proof. unfold utf8_char. destruct (r <? 128)%N, (r <? 2048)%N, (r <? 65536)%N; cbn; lia. Qed.

Lemma runes_fuel_chars rs : Forall xml_code rs -> forall fuel,
  length (concat (map utf8_char rs)) <= fuel ->
  runes_fuel fuel (concat (map utf8_char rs)) = map (fun r => (Some r, utf8_char r)) rs.
Proof.
  induction 1 as [|r rs Hr _ IH]; intros fuel Hf; cbn [map concat] in *.
  - destruct fuel; reflexivity.
  - pose proof (utf8_char_length r). rewrite app_length in Hf.
    destruct fuel as [|fuel]; [lia|]. cbn [runes_fuel].
    destruct (decode_rune_char r (xml_unicode r Hr)) as (c & t & E & Hd). rewrite E in *. cbn [app length] in *.
    rewrite Hd. cbn [map]. rewrite IH by lia. reflexivity.
Qed.

Lemma runes_chars rs : Forall xml_code rs ->
  runes (concat (map utf8_char rs)) = map (fun r => (Some r, utf8_char r)) rs.
Proof. intros H. apply runes_fuel_chars; auto. Qed.

Lemma xml_rune_code r : xml_code r -> xml_rune r = true.
Proof. unfold xml_code, xml_rune. lia. Qed.

Lemma xml_text_string s : xml_string s -> xml_text s = true.
Proof.
  intros (rs & H & ->). unfold xml_text. rewrite runes_chars by auto.
  apply forallb_forall. intros [o b] Hin. apply in_map_iff in Hin as (r & E & Hr).
  injection E as <- <-. cbn. apply xml_rune_code. rewrite Forall_forall in H. auto.
Qed.

Lemma xml_string_nil : xml_string [].
Proof. exists []. split; [constructor | reflexivity]. Qed.

Lemma xml_string_app a b : xml_string a -> xml_string b -> xml_string (a ++ b).
Proof.
  intros (ra & Ha & ->) (rb & Hb & ->). exists (ra ++ rb). split; [apply Forall_app; auto|].
  rewrite map_app, concat_app. reflexivity.
Qed.

Lemma xml_ws_string w : xml_ws w -> xml_string w.
Proof.
  intros H. exists (map code w). split.
  - apply Forall_map. eapply Forall_impl; [|exact H]. intros c Hc. cbv beta in *. unfold xml_code. lia.
  - induction H as [|c w Hc _ IH]; [reflexivity|]. cbn [map concat]. rewrite <- IH.
    cbv beta in Hc. unfold utf8_char. replace (code c <? 128)%N with true by lia. rewrite chr_code. reflexivity.
Qed.

(** ** Writing text *)

Lemma references_ascii c : In c (map snd references) -> (code c < 128)%N.
Proof.
  intros H. apply (in_map code) in H. remember (code c) as n. vm_compute in H. lia.
Qed.

Lemma written_high b raw s : Forall (fun c => 128 <= code c)%N b -> written raw s ->
  written (b ++ raw) (b ++ s).
Proof.
  induction 1 as [|c b Hc _ IH]; intros H; [exact H|]. cbn [app]. apply written_byte; auto.
  intros Hin. apply references_ascii in Hin. lia.
Qed.

Lemma decode_rune_sound c s1 n b rest : decode_rune c s1 = (Some n, b, rest) ->
  unicode_code n /\ b = utf8_char n.
Proof.
  unfold decode_rune, unicode_code, utf8_char. destruct (code c <? 128)%N eqn:E1.
  { intros H. injection H as <- <- <-. split; [lia|]. rewrite E1, chr_code. reflexivity. }
  destruct s1 as [|d s2]; [discriminate|].
  destruct (seq2 c d) eqn:E2.
  { intros H. injection H as <- <- <-. unfold seq2, cont, between in E2. unfold rune2.
    set (n := ((code c - 192) * 64 + (code d - 128))%N). split; [lia|].
    replace (n <? 128)%N with false by lia. replace (n <? 2048)%N with true by lia.
    replace (192 + n / 64)%N with (code c) by lia. replace (128 + n mod 64)%N with (code d) by lia.
    rewrite !chr_code. reflexivity. }
  destruct s2 as [|e s3]; [discriminate|].
  destruct (seq3 c d e) eqn:E3.
  { intros H. injection H as <- <- <-. unfold seq3, cont, between in E3. unfold rune3.
    set (n := (((code c - 224) * 64 + (code d - 128)) * 64 + (code e - 128))%N). split; [lia|].
    replace (n <? 128)%N with false by lia. replace (n <? 2048)%N with false by lia.
    replace (n <? 65536)%N with true by lia.
    replace (224 + n / 4096)%N with (code c) by lia. replace (128 + n / 64 mod 64)%N with (code d) by lia.
    replace (128 + n mod 64)%N with (code e) by lia.
    rewrite !chr_code. reflexivity. }
  destruct s3 as [|f s4]; [discriminate|].
  destruct (seq4 c d e f) eqn:E4; [|discriminate].
  intros H. injection H as <- <- <-. unfold seq4, cont, between in E4. unfold rune4.
  set (n := ((((code c - 240) * 64 + (code d - 128)) * 64 + (code e - 128)) * 64 + (code f - 128))%N). split; [lia|].
  replace (n <? 128)%N with false by lia. replace (n <? 2048)%N with false by lia.
  replace (n <? 65536)%N with false by lia.
  replace (240 + n / 262144)%N with (code c) by lia. replace (128 + n / 4096 mod 64)%N with (code d) by lia.
  replace (128 + n / 64 mod 64)%N with (code e) by lia. replace (128 + n mod 64)%N with (code f) by lia.
  rewrite !chr_code. reflexivity.
Qed.

Lemma decode_rune_none c s1 b rest : decode_rune c s1 = (None, b, rest) ->
  b = [c] /\ rest = s1 /\ forall r s', unicode_code r -> c :: s1 <> utf8_char r ++ s'.
Proof.
  intros H. assert (Hb : b = [c] /\ rest = s1).
  { revert H. unfold decode_rune. destruct (code c <? 128)%N; [discriminate|].
    destruct s1 as [|d s2]; [intros [= <- <-]; auto|]. destruct (seq2 c d); [discriminate|].
    destruct s2 as [|e s3]; [intros [= <- <-]; auto|]. destruct (seq3 c d e); [discriminate|].
    destruct s3 as [|f s4]; [intros [= <- <-]; auto|]. destruct (seq4 c d e f); [discriminate|].
    intros [= <- <-]; auto. }
  destruct Hb as [-> ->]. split; auto. split; auto.
  intros r s' Hr E. destruct (decode_rune_char r Hr) as (c' & t & Ec & Hd). rewrite Ec in E.
  cbn [app] in E. assert (c = c') by congruence. assert (s1 = t ++ s') by congruence. subst. rewrite Hd in H. discriminate.
Qed.

Lemma utf8_char_inj r r' s s' : unicode_code r -> unicode_code r' ->
  utf8_char r ++ s = utf8_char r' ++ s' -> r = r' /\ s = s'.
Proof.
  intros H H' E. destruct (decode_rune_char r H) as (c & t & Ec & Hd). destruct (decode_rune_char r' H') as (c' & t' & Ec' & Hd').
  rewrite Ec, Ec' in E. cbn [app] in E. assert (c = c') by congruence. assert (Et : t ++ s = t' ++ s') by congruence.
  subst c'. specialize (Hd s). specialize (Hd' s'). rewrite Et, Hd' in Hd. split; congruence.
Qed.

Lemma repaired_xml s m : repaired s m -> xml_string m.
Proof.
  assert (Hx : forall r, xml_code r -> xml_string (utf8_char r)).
  { intros r Hr. exists [r]. split; [auto|]. cbn [map concat]. rewrite app_nil_r. reflexivity. }
  assert (Hf : xml_code 65533) by (unfold xml_code; lia).
  induction 1; [apply xml_string_nil | | |]; apply xml_string_app; auto; apply Hx, Hf.
Qed.

Lemma repaired_same s m : xml_string s -> repaired s m -> m = s.
Proof.
  intros Hs H. induction H as [|r s m Hr H IH|r s m Hu Hn H IH|c s m Hb H IH]; [reflexivity| | |];
    destruct Hs as (rs & Hrs & E); destruct rs as [|r0 rs]; cbn [map concat] in E;
    try (pose proof (utf8_char_length r) as Hl; apply (f_equal (@length _)) in E; rewrite app_length in E; cbn in E; lia);
    try discriminate.
  - apply utf8_char_inj in E as [-> ->]; [|apply xml_unicode, Hr | apply xml_unicode, (Forall_inv Hrs)].
    rewrite IH; [reflexivity|]. exists rs. split; [exact (Forall_inv_tail Hrs) | reflexivity].
  - exfalso. apply utf8_char_inj in E as [-> _]; [|exact Hu | apply xml_unicode, (Forall_inv Hrs)].
    exact (Hn (Forall_inv Hrs)).
  - exfalso. exact (Hb _ _ (xml_unicode _ (Forall_inv Hrs)) E).
Qed.

Lemma repaired_empty s m : repaired s m -> (s = [] <-> m = []).
Proof.
  assert (Hne : forall r x, utf8_char r ++ x <> []).
  { intros r x E. pose proof (utf8_char_length r) as Hl. apply (f_equal (@length _)) in E. rewrite app_length in E. cbn in E. lia. }
  intros []; split; intros E; try reflexivity; exfalso; try discriminate; try (apply Hne in E; exact E).
Qed.

Lemma decode_rune_bytes c s1 r b rest : decode_rune c s1 = (r, b, rest) ->
  c :: s1 = b ++ rest /\ 1 <= length b /\
  ((exists c0, b = [c0] /\ (code c0 < 128)%N /\ r = Some (code c0)) \/
   (Forall (fun c => 128 <= code c)%N b /\ (forall n, r = Some n -> (128 <= n)%N))).
Proof.
  unfold decode_rune. destruct (code c <? 128)%N eqn:E1.
  { intros H. injection H as <- <- <-. split; [auto|]. split; [cbn; lia|]. left. exists c. split; auto. split; auto. lia. }
  assert (Hbad : forall x, (None : option N, [c], x) = (r, b, rest) -> x = s1 ->
    c :: s1 = b ++ rest /\ 1 <= length b /\
    ((exists c0, b = [c0] /\ (code c0 < 128)%N /\ r = Some (code c0)) \/
     (Forall (fun c => 128 <= code c)%N b /\ (forall n, r = Some n -> (128 <= n)%N)))).
  { intros x H ->. injection H as <- <- <-. split; [auto|]. split; [cbn; lia|]. right. split.
    - constructor; auto. lia.
    - discriminate. }
  destruct s1 as [|d s2]; [intros H; eapply Hbad; eauto|].
  destruct (seq2 c d) eqn:E2.
  { intros H. injection H as <- <- <-. split; [auto|]. split; [cbn; lia|]. right.
    unfold seq2, cont, between in E2. split; [repeat constructor; lia|].
    intros n H. injection H as <-. unfold rune2. lia. }
  destruct s2 as [|e s3]; [intros H; eapply Hbad; eauto|].
  destruct (seq3 c d e) eqn:E3.
  { intros H. injection H as <- <- <-. split; [auto|]. split; [cbn; lia|]. right.
    unfold seq3, cont, between in E3. split; [repeat constructor; lia|].
    intros n H. injection H as <-. unfold rune3. lia. }
  destruct s3 as [|f s4]; [intros H; eapply Hbad; eauto|].
  destruct (seq4 c d e f) eqn:E4.
  { intros H. injection H as <- <- <-. split; [auto|]. split; [cbn; lia|]. right.
    unfold seq4, cont, between in E4. split; [repeat constructor; lia|].
    intros n H. injection H as <-. unfold rune4. lia. }
  intros H; eapply Hbad; eauto.
Qed.

Ltac in_list := repeat (first [left; reflexivity | right]).

Lemma written_replacement raw s : written raw s -> written (encode_rune 65533 ++ raw) (replacement ++ s).
Proof. apply (written_high replacement). repeat constructor; vm_compute; discriminate. Qed.

Lemma xml_rune_iff r : xml_rune r = true <-> xml_code r.
Proof. unfold xml_code, xml_rune. lia. Qed.

Lemma escape_rune_ascii c raw s : (code c < 128)%N -> written raw s ->
  written (escape_rune (Some (code c)) [c] ++ raw) ((if xml_rune (code c) then [c] else replacement) ++ s).
Proof.
  intros Hc H.
  assert (Hr : forall r n, In (r, chr n) references -> code c = n -> (n < 128)%N -> xml_rune n = true ->
     written (r ++ raw) ((if xml_rune (code c) then [c] else replacement) ++ s)).
  { intros r n Hin Hd Hn Hx. rewrite Hd, Hx.
    assert (c = chr n) as -> by (apply code_inj; rewrite code_chr by lia; auto).
    apply written_reference; auto. }
  unfold escape_rune.
  destruct (N.eqb_spec (code c) 34); [apply (Hr _ 34%N); [in_list | auto | reflexivity | reflexivity]|].
  destruct (N.eqb_spec (code c) 39); [apply (Hr _ 39%N); [in_list | auto | reflexivity | reflexivity]|].
  destruct (N.eqb_spec (code c) 38); [apply (Hr _ 38%N); [in_list | auto | reflexivity | reflexivity]|].
  destruct (N.eqb_spec (code c) 60); [apply (Hr _ 60%N); [in_list | auto | reflexivity | reflexivity]|].
  destruct (N.eqb_spec (code c) 62); [apply (Hr _ 62%N); [in_list | auto | reflexivity | reflexivity]|].
  destruct (N.eqb_spec (code c) 9); [apply (Hr _ 9%N); [in_list | auto | reflexivity | reflexivity]|].
  destruct (N.eqb_spec (code c) 10); [apply (Hr _ 10%N); [in_list | auto | reflexivity | reflexivity]|].
  destruct (N.eqb_spec (code c) 13); [apply (Hr _ 13%N); [in_list | auto | reflexivity | reflexivity]|].
  destruct (xml_rune (code c)) eqn:E.
  - apply written_byte; auto. intros Hin.
    assert (Hx : In (code c) (map code (map snd references))) by (apply in_map; auto).
    remember (code c) as k. vm_compute in Hx. lia.
  - apply written_replacement; auto.
Qed.

Lemma escape_rune_high n b raw s : Forall (fun c => 128 <= code c)%N b -> (128 <= n)%N -> written raw s ->
  written (escape_rune (Some n) b ++ raw) ((if xml_rune n then b else replacement) ++ s).
Proof.
  intros Hb Hr H. unfold escape_rune.
  replace (n =? 34)%N with false by lia. replace (n =? 39)%N with false by lia.
  replace (n =? 38)%N with false by lia. replace (n =? 60)%N with false by lia.
  replace (n =? 62)%N with false by lia. replace (n =? 9)%N with false by lia.
  replace (n =? 10)%N with false by lia. replace (n =? 13)%N with false by lia.
  destruct (xml_rune n); [apply written_high; auto | apply written_replacement; auto].
Qed.

Lemma escape_repaired_fuel fuel : forall s, length s <= fuel ->
  exists m, written (concat (map (fun p => escape_rune (fst p) (snd p)) (runes_fuel fuel s))) m /\ repaired s m.
Proof.
  induction fuel as [|fuel IH]; intros s Hs.
  - destruct s; [|cbn in Hs; lia]. exists []. split; constructor.
  - destruct s as [|c s1]; [exists []; split; constructor|].
    cbn [runes_fuel]. destruct (decode_rune c s1) as [[r b] rest] eqn:E.
    pose proof (decode_rune_bytes _ _ _ _ _ E) as (Hs' & Hl & Hb).
    assert (Hlen : length rest <= fuel).
    { apply f_equal with (f := @length _) in Hs'. rewrite app_length in Hs'. cbn [length] in *. lia. }
    destruct (IH rest Hlen) as (m & Hm & Hx). cbn [map concat fst snd].
    destruct r as [n|].
    + apply decode_rune_sound in E as [Hu Eb].
      exists ((if xml_rune n then b else replacement) ++ m). split.
      * destruct Hb as [(c0 & Eb0 & Hc & En)|[Hb Hr]].
        -- assert (n = code c0) by congruence. subst n. rewrite Eb0. apply escape_rune_ascii; auto.
        -- apply escape_rune_high; auto.
      * rewrite Hs', Eb. destruct (xml_rune n) eqn:Ex.
        -- apply xml_rune_iff in Ex. apply repaired_char; auto.
        -- apply repaired_control; auto. rewrite <- xml_rune_iff. congruence.
    + apply decode_rune_none in E as (-> & -> & Hno). exists (replacement ++ m). split.
      * apply written_replacement. exact Hm.
      * apply repaired_byte; auto.
Qed.

(** Whatever the bytes of a field are, they are written without markup and mean
    the repaired text. *)
Lemma escape_repaired s : exists m, written (escape s) m /\ repaired s m.
Proof. exact (escape_repaired_fuel (length s) s (le_n _)). Qed.

Lemma escape_written s : xml_string s -> written (escape s) s.
Proof.
  intros Hs. destruct (escape_repaired s) as (m & H & Hr). rewrite (repaired_same s m Hs Hr) in H. exact H.
Qed.

(** ** Reading text *)

Lemma reference_entity strict r c rest : In (r, c) references ->
  exists r', r = "&"%char :: r' /\ entity strict (r' ++ rest) = Some ([c], rest).
Proof.
  intros H. cbn [references In] in H.
  repeat destruct H as [H|H]; try contradiction; injection H as <- <-;
    (eexists; split; [reflexivity|]); reflexivity.
Qed.

Lemma not_reference_char c : ~ In c (map snd references) ->
  Ascii.eqb c "<" = false /\ Ascii.eqb c ">" = false /\ Ascii.eqb c "&" = false /\
  Ascii.eqb c cr = false /\ Ascii.eqb c nl = false.
Proof.
  intros H. repeat split; apply Ascii.eqb_neq; intros ->; apply H; in_list.
Qed.

Lemma eqb_gt_false b0 b1 c : Ascii.eqb c ">" = false ->
  Ascii.eqb b0 "]" && Ascii.eqb b1 "]" && Ascii.eqb c ">" = false.
Proof. intros ->. apply andb_false_r. Qed.

Lemma text_loop_written raw s : written raw s ->
  forall fuel strict b0 b1 acc rest, length (raw ++ rest) < fuel -> b1 <> cr ->
  exists fuel' b0' b1',
    text_loop fuel strict None false b0 b1 acc (raw ++ rest) =
    text_loop fuel' strict None false b0' b1' (rev s ++ acc) rest /\
    length rest < fuel' /\ b1' <> cr.
Proof.
  induction 1 as [|c raw s Hc H IH|r c raw s Hr H IH]; intros fuel strict b0 b1 acc rest Hf Hb.
  - exists fuel, b0, b1. auto.
  - destruct (not_reference_char c Hc) as (H1 & H2 & H3 & H4 & H5).
    destruct fuel as [|fuel]; [cbn in Hf; lia|]. cbn [app length] in Hf.
    cbn [app text_loop]. rewrite eqb_gt_false by auto. rewrite H1, H3, H4, H5. cbn [andb].
    rewrite andb_false_r.
    destruct (IH fuel strict b1 c (c :: acc) rest) as (f' & a & b & E & Hl & Hn); [lia| |].
    { intros ->. rewrite Ascii.eqb_refl in H4. discriminate. }
    exists f', a, b. split; auto. rewrite E. cbn [rev]. rewrite <- app_assoc. reflexivity.
  - destruct (reference_entity strict r c (raw ++ rest) Hr) as (r' & -> & He).
    destruct fuel as [|fuel]; [cbn in Hf; lia|]. cbn [app length] in Hf.
    cbn [app text_loop]. rewrite <- app_assoc, He. cbn [Ascii.eqb Bool.eqb andb negb rev app].
    rewrite andb_false_r.
    rewrite !app_length in Hf.
    destruct (IH fuel strict (chr 0) (chr 0) (c :: acc) rest) as (f' & a & b & E & Hl & Hn);
      [rewrite app_length; lia| |].
    { intros X. apply (f_equal code) in X. vm_compute in X. discriminate. }
    exists f', a, b. split; auto. rewrite E. rewrite <- app_assoc. reflexivity.
Qed.

Lemma text_loop_ws w : xml_ws w -> forall fuel strict b0 b1 acc r,
  length (w ++ "<"%char :: r) < fuel ->
  exists w', xml_ws w' /\ (w = [] -> w' = []) /\ (b1 <> cr -> w' = [] -> w = []) /\
    text_loop fuel strict None false b0 b1 acc (w ++ "<"%char :: r) = Some (rev acc ++ w', "<"%char :: r).
Proof.
  induction 1 as [|c w Hc Hw IH]; intros fuel strict b0 b1 acc r Hf.
  - exists []. split; [constructor|]. split; auto. split; auto. destruct fuel as [|fuel]; [cbn in Hf; lia|].
    cbn [app text_loop]. rewrite eqb_gt_false by reflexivity. rewrite app_nil_r. reflexivity.
  - destruct fuel as [|fuel]; [cbn in Hf; lia|]. cbn [app length] in Hf. cbn [app text_loop].
    assert (Hne : forall n, (n = 60 \/ n = 62 \/ n = 38)%N -> Ascii.eqb c (chr n) = false).
    { intros n Hn. apply Ascii.eqb_neq. intros ->. rewrite code_chr in Hc by lia. lia. }
    assert (H1 : Ascii.eqb c "<" = false) by (apply (Hne 60%N); auto).
    assert (H2 : Ascii.eqb c ">" = false) by (apply (Hne 62%N); auto).
    assert (H3 : Ascii.eqb c "&" = false) by (apply (Hne 38%N); auto).
    rewrite eqb_gt_false by auto. rewrite H1, H3. cbn [andb].
    assert (Hgo : forall acc', acc' = acc /\ b1 = cr \/ (exists d, acc' = d :: acc /\ xml_ws [d]) ->
      exists w', xml_ws w' /\ (c :: w = [] -> w' = []) /\ (b1 <> cr -> w' = [] -> c :: w = []) /\
        text_loop fuel strict None false b1 c acc' (w ++ "<"%char :: r) = Some (rev acc ++ w', "<"%char :: r)).
    { intros acc' Ha. destruct (IH fuel strict b1 c acc' r) as (w' & Hw' & _ & _ & E); [lia|].
      destruct Ha as [[-> Hcr]|(d & -> & Hd)].
      - exists w'. split; auto. split; [discriminate|]. split; [contradiction | auto].
      - exists (d :: w'). split; [constructor; [inversion Hd; auto | auto]|]. split; [discriminate|].
        split; [discriminate|].
        rewrite E. cbn [rev]. rewrite <- app_assoc. reflexivity. }
    apply Hgo. destruct (Ascii.eqb c cr); [right; exists nl; split; [auto | constructor; [vm_compute; auto | constructor]]|].
    destruct (Ascii.eqb b1 cr && Ascii.eqb c nl) eqn:Ecr; [left; split; auto; apply andb_true_iff in Ecr as [Ecr _]; apply Ascii.eqb_eq; auto|].
    right. exists c. split; auto. constructor; [auto | constructor].
Qed.

Lemma read_text_seg strict raw s w r : written raw s -> xml_string s -> xml_ws w ->
  exists w', xml_ws w' /\ (w = [] <-> w' = []) /\
    read_text strict None false (raw ++ w ++ "<"%char :: r) = Some (s ++ w', "<"%char :: r).
Proof.
  intros Hr Hs Hw.
  destruct (text_loop_written raw s Hr (S (length (raw ++ w ++ "<"%char :: r))) strict (chr 0) (chr 0) [] (w ++ "<"%char :: r))
    as (f & b0 & b1 & E & Hl & Hb1); [lia| |].
  { intros X. apply (f_equal code) in X. vm_compute in X. discriminate. }
  destruct (text_loop_ws w Hw f strict b0 b1 (rev s ++ []) r Hl) as (w' & Hw' & Hn & Hn' & E').
  exists w'. split; auto. split; [split; auto|]. unfold read_text. rewrite E, E'. cbn [bind fst].
  rewrite app_nil_r, rev_involutive, xml_text_string; auto.
  apply xml_string_app; auto. apply xml_ws_string; auto.
Qed.

Lemma written_nil_iff raw s : written raw s -> (raw = [] <-> s = []).
Proof.
  intros [|c raw' s' H|r c raw' s' Hr H]; [tauto|split; discriminate|].
  destruct (reference_entity true r c [] Hr) as (r' & -> & _). split; discriminate.
Qed.

Lemma written_head c raw s : written (c :: raw) s -> Ascii.eqb c "<" = false.
Proof.
  intros H. inversion H as [|c' raw' s' Hc|r c' raw' s' Hr]; subst.
  - apply (not_reference_char c); auto.
  - destruct (reference_entity true r c' [] Hr) as (r' & -> & _). assert (c = "&"%char) as -> by (cbn [app] in *; congruence). reflexivity.
Qed.

Lemma lex_text fuel strict raw s w r : written raw s -> xml_string s -> xml_ws w ->
  raw ++ w <> [] ->
  exists w', xml_ws w' /\ (w = [] <-> w' = []) /\
    lex_fuel (S fuel) strict (raw ++ w ++ "<"%char :: r) =
    TChar (s ++ w') :: lex_fuel fuel strict ("<"%char :: r).
Proof.
  intros Hr Hs Hw Hne. destruct (read_text_seg strict raw s w r Hr Hs Hw) as (w' & Hw' & Hn & E).
  exists w'. split; auto. split; auto.
  assert (Hc : exists c x, raw ++ w ++ "<"%char :: r = c :: x /\ Ascii.eqb c "<" = false).
  { destruct raw as [|c raw].
    - destruct w as [|c w]; [contradiction|]. exists c, (w ++ "<"%char :: r). split; auto.
      inversion Hw as [|? ? Hc]; subst. apply Ascii.eqb_neq. intros ->. assert (E1 : code "<"%char = 60%N) by reflexivity. rewrite E1 in Hc. lia.
    - exists c, (raw ++ w ++ "<"%char :: r). split; auto. apply written_head in Hr. auto. }
  destruct Hc as (c & x & E1 & E2). cbn [lex_fuel]. rewrite E1 in *. rewrite E2, E. reflexivity.
Qed.

(** ** Reading tags *)

Lemma span_app p a c r : forallb p a = true -> p c = false -> span p (a ++ c :: r) = (a, c :: r).
Proof.
  induction a as [|x a IH]; intros Ha Hc; cbn [app span].
  - rewrite Hc. reflexivity.
  - cbn [forallb] in Ha. apply andb_true_iff in Ha as [Hx Ha]. rewrite Hx, IH by auto. reflexivity.
Qed.

Lemma plain_name_spec nm : plain_name nm ->
  is_name nm = true /\ forallb name_or_high nm = true /\ ~ In ":"%char nm /\ nm <> [].
Proof.
  intros (c & r & -> & Hc & Hr).
  assert (Hb : Forall (fun d => name_byte d = true /\ d <> ":"%char) (c :: r)).
  { constructor.
    - split; [|intros ->; assert (E : code ":"%char = 58%N) by reflexivity; unfold letter in Hc; rewrite E in Hc; lia].
      unfold name_byte, name_first, is_upper, is_lower, is_digit, letter in *. lia.
    - eapply Forall_impl; [|exact Hr]. intros d Hd. cbv beta in Hd. unfold letter, digit in Hd. split.
      + unfold name_byte, name_first, is_upper, is_lower, is_digit. lia.
      + intros ->. assert (E : code ":"%char = 58%N) by reflexivity. rewrite E in Hd. lia. }
  assert (Hall : forallb name_byte (c :: r) = true).
  { apply forallb_forall. rewrite Forall_forall in Hb. intros x Hx. apply Hb; auto. }
  split; [|split; [|split]].
  - unfold is_name. rewrite Hall, andb_true_r. unfold name_first, is_upper, is_lower, letter in *. lia.
  - apply forallb_forall. rewrite forallb_forall in Hall. intros x Hx. unfold name_or_high. rewrite Hall; auto.
  - intros Hin. rewrite Forall_forall in Hb. apply (Hb _ Hin). reflexivity.
  - discriminate.
Qed.

Lemma read_name_plain nm c r : plain_name nm -> name_or_high c = false ->
  read_name (nm ++ c :: r) = Some (nm, c :: r).
Proof.
  intros Hn Hc. apply plain_name_spec in Hn as (H1 & H2 & _). unfold read_name.
  rewrite span_app, H1 by auto. reflexivity.
Qed.

Lemma split_name_plain nm : plain_name nm -> split_name nm = ([], nm).
Proof.
  intros Hn. apply plain_name_spec in Hn as (_ & _ & H & _). unfold split_name.
  change (bs ":") with [":"%char]. rewrite split2_none by auto. reflexivity.
Qed.

Lemma plain_first nm : plain_name nm -> exists c r, nm = c :: r /\
  Ascii.eqb "/" c = false /\ Ascii.eqb "?" c = false /\ Ascii.eqb "!" c = false.
Proof.
  intros (c & r & -> & Hc & _). exists c, r. split; auto. unfold letter in Hc.
  assert (E1 : code "/"%char = 47%N) by reflexivity. assert (E2 : code "?"%char = 63%N) by reflexivity.
  assert (E3 : code "!"%char = 33%N) by reflexivity.
  repeat split; apply Ascii.eqb_neq; intros <-; rewrite ?E1, ?E2, ?E3 in Hc; lia.
Qed.

Lemma read_start_plain strict nm r : plain_name nm ->
  read_tag strict (nm ++ ">"%char :: r) = Some ([TStart [] nm], r).
Proof.
  intros Hn. destruct (plain_first nm Hn) as (c & x & E & H1 & H2 & H3).
  assert (Hr : read_start_tag strict (nm ++ ">"%char :: r) = Some ([TStart [] nm], r)).
  { unfold read_start_tag. rewrite read_name_plain by (auto || reflexivity).
    cbn [bind fst snd length]. rewrite split_name_plain by auto. reflexivity. }
  revert Hr. subst nm. cbn [app]. intros Hr. unfold read_tag, after.
  cbn [has_prefix bs list_ascii_of_string]. rewrite H1, H2, H3. cbn [andb]. exact Hr.
Qed.

Lemma read_end_plain strict nm r : plain_name nm ->
  read_tag strict ("/"%char :: nm ++ ">"%char :: r) = Some ([TEnd [] nm], r).
Proof.
  intros Hn.
  assert (Hr : read_end_tag (nm ++ ">"%char :: r) = Some ([TEnd [] nm], r)).
  { unfold read_end_tag. rewrite read_name_plain by (auto || reflexivity).
    cbn [bind fst snd]. rewrite split_name_plain by auto. reflexivity. }
  exact Hr.
Qed.

Lemma start_tag_eq nm r : start_tag nm ++ r = "<"%char :: nm ++ ">"%char :: r.
Proof. unfold start_tag. rewrite <- !app_assoc. reflexivity. Qed.

Lemma end_tag_eq nm r : end_tag nm ++ r = "<"%char :: "/"%char :: nm ++ ">"%char :: r.
Proof. unfold end_tag. rewrite <- !app_assoc. reflexivity. Qed.

Lemma lex_start fuel strict nm r : plain_name nm ->
  lex_fuel (S fuel) strict (start_tag nm ++ r) = TStart [] nm :: lex_fuel fuel strict r.
Proof.
  intros Hn. rewrite start_tag_eq. cbn [lex_fuel]. rewrite read_start_plain by auto. reflexivity.
Qed.

Lemma lex_end fuel strict nm r : plain_name nm ->
  lex_fuel (S fuel) strict (end_tag nm ++ r) = TEnd [] nm :: lex_fuel fuel strict r.
Proof.
  intros Hn. rewrite end_tag_eq. cbn [lex_fuel]. rewrite read_end_plain by auto. reflexivity.
Qed.
