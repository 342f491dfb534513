(** The text of an XML document: the scanner follows the grammar, in both
    directions. *)
From Coq Require Import Lia Bool List.
From Verif Require Import GoStr GoStrFacts SpecStr Codec Utf8 Xml LexFacts SpecXml XmlFacts HeaderFacts SpecMarkup.

(** ** Occurrences *)

Lemma occurs_cons x p c s : c <> x -> (occurs (x :: p) (c :: s) <-> occurs (x :: p) s).
Proof.
  intros Hc. split; intros (a & b & E).
  - destruct a as [|y a]; [injection E; congruence|]. injection E as <- E. exists a, b. exact E.
  - exists (c :: a), b. rewrite E. reflexivity.
Qed.

Lemma occurs_step x p c s : occurs (x :: p) (c :: s) <-> (exists r, c :: s = (x :: p) ++ r) \/ occurs (x :: p) s.
Proof.
  split.
  - intros (a & b & E). destruct a as [|y a]; [left; eauto|]. injection E as <- E. right. exists a, b. exact E.
  - intros [[r E]|(a & b & E)]; [exists [], r; exact E|]. exists (c :: a), b. rewrite E. reflexivity.
Qed.

Lemma occurs_nil x p : ~ occurs (x :: p) [].
Proof. intros (a & b & E). destruct a; discriminate. Qed.

Lemma occurs_app p a b : occurs p a \/ occurs p b -> occurs p (a ++ b).
Proof.
  intros [(x & y & ->)|(x & y & ->)].
  - exists x, (y ++ b). rewrite <- !app_assoc. reflexivity.
  - exists (a ++ x), y. rewrite <- !app_assoc. reflexivity.
Qed.

Definition cdend : str := bs "]]>".

Lemma cdend_step x y z l : occurs cdend (x :: y :: z :: l) <->
  (x = "]"%char /\ y = "]"%char /\ z = ">"%char) \/ occurs cdend (y :: z :: l).
Proof.
  unfold cdend. change (bs "]]>") with ["]"%char; "]"%char; ">"%char]. rewrite occurs_step. cbn [app]. split.
  - intros [[r E]|H]; [injection E as -> -> -> _; auto | auto].
  - intros [(-> & -> & ->)|H]; [left; eexists; reflexivity | auto].
Qed.

Lemma cdend_two x y : ~ occurs cdend [x; y].
Proof.
  intros (a & b & E). apply (f_equal (@length ascii)) in E. rewrite !app_length in E. cbn in E. lia.
Qed.

Lemma cdend_zero s : occurs cdend (chr 0 :: chr 0 :: s) <-> occurs cdend s.
Proof. unfold cdend. change (bs "]]>") with ("]"%char :: bs "]>"). rewrite !occurs_cons by discriminate. reflexivity. Qed.

Definition harmless (c : ascii) : Prop := c <> "]"%char /\ c <> ">"%char.

Lemma cdend_after x y e l : harmless e -> (occurs cdend (x :: y :: e :: l) <-> occurs cdend l).
Proof.
  intros [H1 H2]. rewrite cdend_step. unfold cdend. change (bs "]]>") with ["]"%char; "]"%char; ">"%char].
  rewrite (occurs_step _ _ y). rewrite occurs_cons by exact H1. cbn [app]. split; [|auto].
  intros [(_ & _ & H)|[[r E]|H]]; [congruence | injection E; congruence | exact H].
Qed.

Lemma cdend_skip ref : Forall harmless ref -> forall l, occurs cdend (ref ++ l) <-> occurs cdend l.
Proof.
  induction 1 as [|c ref [Hc _] _ IH]; intros l; [reflexivity|]. cbn [app].
  unfold cdend in *. change (bs "]]>") with ("]"%char :: bs "]>") in *. rewrite occurs_cons by exact Hc. apply IH.
Qed.

(** ** Numbers *)

Lemma is_digit_iff c : is_digit c = true <-> digit c.
Proof. unfold is_digit, digit, between. rewrite andb_true_iff, !N.leb_le. reflexivity. Qed.

Lemma is_hex_iff c : is_hex c = true <-> hex_digit c.
Proof.
  unfold is_hex, hex_digit. rewrite !orb_true_iff, is_digit_iff. unfold between. rewrite !andb_true_iff, !N.leb_le. tauto.
Qed.

Lemma hex_val_digit c : hex_digit c -> hex_val c = digit_value c.
Proof.
  intros H. unfold hex_val, digit_value. destruct (is_digit c) eqn:Ed.
  - apply is_digit_iff in Ed. unfold digit in Ed. destruct (N.leb_spec (code c) 57); [reflexivity | lia].
  - assert (~ digit c) by (rewrite <- is_digit_iff; congruence). unfold hex_digit, digit in *.
    unfold between. destruct H as [H|H]; [lia|].
    destruct (N.leb_spec 97 (code c)), (N.leb_spec (code c) 102), (N.leb_spec (code c) 57), (N.leb_spec (code c) 70); cbn; lia.
Qed.

Lemma number_value base ds : Forall hex_digit ds -> number base ds = value_in base ds.
Proof.
  unfold number, value_in. generalize 0%N as n. induction ds as [|d ds IH]; intros n H; [reflexivity|].
  cbn [fold_left value_from]. rewrite hex_val_digit by exact (Forall_inv H). apply IH. exact (Forall_inv_tail H).
Qed.

Lemma encode_numbered n : (n <= 1114111)%N -> encode_rune n = numbered n.
Proof.
  intros H. unfold encode_rune, numbered, utf8_char.
  destruct (N.leb_spec 55296 n), (N.leb_spec n 57343), (N.ltb_spec 1114111 n), (N.ltb_spec n 128), (N.ltb_spec n 2048),
    (N.ltb_spec n 65536); try lia; cbn [andb orb]; reflexivity.
Qed.

Lemma digit_hex c : digit c -> hex_digit c.
Proof. unfold hex_digit. auto. Qed.

Lemma char_ref_iff (hex : bool) ds t : Forall (if hex then hex_digit else digit) ds ->
  (char_ref hex ds = Some t <-> ds <> [] /\ (value_in (if hex then 16 else 10) ds <= 1114111)%N /\
     t = numbered (value_in (if hex then 16 else 10) ds)).
Proof.
  intros Hd. assert (Hh : Forall hex_digit ds).
  { destruct hex; [exact Hd|]. eapply Forall_impl; [|exact Hd]. exact digit_hex. }
  unfold char_ref. rewrite number_value by exact Hh.
  destruct ds as [|d ds]; [cbn [null negb andb]; split; [discriminate | intros [H _]; congruence]|].
  cbn [null negb andb]. set (n := value_in _ _). destruct (N.leb_spec n 1114111) as [H|H].
  - rewrite encode_numbered by exact H. split; [intros [= <-]; split; [discriminate | auto] | intros (_ & _ & ->); reflexivity].
  - split; [discriminate | intros (_ & Hn & _); lia].
Qed.

(** ** References *)

Lemma span_forall p s a r : span p s = (a, r) -> s = a ++ r /\ Forall (fun c => p c = true) a /\
  forall c r', r = c :: r' -> p c = false.
Proof.
  revert a r. induction s as [|c s IH]; intros a r; cbn [span].
  - intros [= <- <-]. repeat split; [constructor | discriminate].
  - destruct (p c) eqn:Ec.
    + destruct (span p s) as [a' r'] eqn:Es. intros [= <- <-]. destruct (IH a' r' eq_refl) as (-> & Ha & Hr).
      repeat split; [constructor; auto | exact Hr].
    + intros [= <- <-]. repeat split; [constructor|]. intros c' r' [= -> _]. exact Ec.
Qed.

Lemma entity_sound s t r : entity true s = Some (t, r) -> exists x, reference ("&"%char :: x) t /\ s = x ++ r.
Proof.
  unfold entity. cbv beta iota zeta. destruct (after (bs "#") s) as [s1|] eqn:E1.
  - apply after_some in E1. subst s. destruct (has_prefix (bs "x") s1) eqn:Ex.
    + apply has_prefix_spec in Ex as [s2 ->]. change (tl (bs "x" ++ s2)) with s2.
      destruct (span is_hex s2) as [ds rest] eqn:Es. apply span_forall in Es as (-> & Hd & _).
      destruct (null rest); [discriminate|]. destruct (after (bs ";") rest) as [rest'|] eqn:E2; [|discriminate].
      apply after_some in E2. subst rest.
      destruct (char_ref true ds) as [u|] eqn:Ec; [|discriminate]. intros [= <- <-].
      apply (char_ref_iff true ds u) in Ec as (H1 & H2 & ->).
      * exists (bs "#x" ++ ds ++ bs ";"). split.
        -- apply (reference_hexadecimal ds); auto. eapply Forall_impl; [|exact Hd]. intros c. apply is_hex_iff.
        -- change (bs "#" ++ bs "x" ++ ds ++ bs ";" ++ rest') with (bs "#x" ++ ds ++ bs ";" ++ rest'). rewrite <- !app_assoc. reflexivity.
      * eapply Forall_impl; [|exact Hd]. intros c. apply is_hex_iff.
    + destruct (span is_digit s1) as [ds rest] eqn:Es. apply span_forall in Es as (-> & Hd & _).
      destruct (null rest); [discriminate|]. destruct (after (bs ";") rest) as [rest'|] eqn:E2; [|discriminate].
      apply after_some in E2. subst rest.
      destruct (char_ref false ds) as [u|] eqn:Ec; [|discriminate]. intros [= <- <-].
      apply (char_ref_iff false ds u) in Ec as (H1 & H2 & ->).
      * exists (bs "#" ++ ds ++ bs ";"). split.
        -- apply (reference_decimal ds); auto. eapply Forall_impl; [|exact Hd]. intros c. apply is_digit_iff.
        -- rewrite <- !app_assoc. reflexivity.
      * eapply Forall_impl; [|exact Hd]. intros c. apply is_digit_iff.
  - destruct (span name_or_high s) as [nm rest] eqn:Es. apply span_forall in Es as (-> & _ & _).
    destruct (null rest); [discriminate|]. destruct (after (bs ";") rest) as [rest'|] eqn:E2; [|discriminate].
    apply after_some in E2. subst rest. unfold named_entity.
    repeat match goal with |- context [str_eqb nm ?x] =>
      let E := fresh "E" in destruct (str_eqb nm x) eqn:E; [apply str_eqb_eq in E; subst nm|clear E] end; [..|discriminate];
      intros [= <- <-].
    + exists (bs "lt;"). split; [exact reference_lt | reflexivity].
    + exists (bs "gt;"). split; [exact reference_gt | reflexivity].
    + exists (bs "amp;"). split; [exact reference_amp | reflexivity].
    + exists (bs "apos;"). split; [exact reference_apos | reflexivity].
    + exists (bs "quot;"). split; [exact reference_quot | reflexivity].
Qed.

Lemma entity_complete x t r : reference x t -> exists y, x = "&"%char :: y /\ entity true (y ++ r) = Some (t, r).
Proof.
  intros H. destruct H as [| | | | |ds Hn Hd Hv|ds Hn Hd Hv].
  1-5: eexists; (split; [reflexivity|]); destruct r; reflexivity.
  - exists (bs "#" ++ ds ++ bs ";"). split; [reflexivity|]. unfold entity. rewrite <- !app_assoc. rewrite after_app.
    assert (Hdig : Forall (fun c => is_digit c = true) ds) by (eapply Forall_impl; [|exact Hd]; intros c; apply is_digit_iff).
    assert (Ex : has_prefix (bs "x") (ds ++ bs ";" ++ r) = false).
    { destruct ds as [|d ds]; [congruence|]. apply Forall_inv in Hd.
      destruct (has_prefix (bs "x") ((d :: ds) ++ bs ";" ++ r)) eqn:E; [|reflexivity].
      apply has_prefix_spec in E as [s2 E]. injection E as -> _. unfold digit in Hd. vm_compute in Hd. destruct Hd; congruence. }
    rewrite Ex. rewrite span_exact; [|exact Hdig|intros c r' E; injection E as <- _; reflexivity].
    change (null (bs ";" ++ r)) with false. cbv iota. rewrite after_app.
    assert (Ec : char_ref false ds = Some (numbered (value_in 10 ds))) by (apply (char_ref_iff false); auto).
    rewrite Ec. reflexivity.
  - exists (bs "#x" ++ ds ++ bs ";"). split; [reflexivity|]. unfold entity.
    change ((bs "#x" ++ ds ++ bs ";") ++ r) with (bs "#" ++ (bs "x" ++ (ds ++ bs ";") ++ r)). rewrite after_app.
    change (has_prefix (bs "x") (bs "x" ++ (ds ++ bs ";") ++ r)) with true. cbv iota zeta.
    change (tl (bs "x" ++ (ds ++ bs ";") ++ r)) with ((ds ++ bs ";") ++ r). rewrite <- app_assoc.
    assert (Hdig : Forall (fun c => is_hex c = true) ds) by (eapply Forall_impl; [|exact Hd]; intros c; apply is_hex_iff).
    rewrite span_exact; [|exact Hdig|intros c r' E; injection E as <- _; reflexivity].
    change (null (bs ";" ++ r)) with false. cbv iota. rewrite after_app.
    assert (Ec : char_ref true ds = Some (numbered (value_in 16 ds))) by (apply (char_ref_iff true); auto).
    rewrite Ec. reflexivity.
Qed.

(** The bytes of a reference. *)
Definition inert (c : ascii) : Prop := harmless c /\ c <> "'"%char /\ c <> chr 34 /\ c <> "<"%char.

Lemma inert_code c : (48 <= code c <= 57 \/ 97 <= code c <= 102 \/ 65 <= code c <= 70)%N -> inert c.
Proof. intros H. unfold inert, harmless. repeat split; intros ->; vm_compute in H; intuition congruence. Qed.

Lemma reference_inert r t : reference r t -> Forall inert r.
Proof.
  assert (Hb : forall x, forallb (fun c => negb (existsb (Ascii.eqb c) ["]"%char; ">"%char; "'"%char; chr 34; "<"%char])) x = true ->
    Forall inert x).
  { intros x H. rewrite forallb_forall in H. apply Forall_forall. intros c Hc. specialize (H c Hc).
    unfold inert, harmless. repeat split; intros ->; discriminate. }
  intros [| | | | |ds Hn Hd Hv|ds Hn Hd Hv]; try (apply Hb; reflexivity);
    (apply Forall_app; split; [apply Hb; reflexivity|]); (apply Forall_app; split; [|apply Hb; reflexivity]);
    (eapply Forall_impl; [|exact Hd]); intros c Hc; apply inert_code; unfold hex_digit, digit in Hc; tauto.
Qed.

Lemma reference_amp_first r t : reference r t -> exists y, r = "&"%char :: y.
Proof. intros []; eexists; reflexivity. Qed.

(** ** The loop over text *)

Definition plain_byte (c : ascii) : Prop := c <> "<"%char /\ c <> "&"%char.

(** What the rest of a text means after the byte [b]: a line feed after CR has
    already been counted. *)
Definition continues (refs : bool) (ok : ascii -> Prop) (b : ascii) (raw m : str) : Prop :=
  (b <> cr /\ literal refs ok raw m) \/
  (b = cr /\ ((exists raw', raw = nl :: raw' /\ literal refs ok raw' m) \/
              ((forall r, raw <> nl :: r) /\ literal refs ok raw m))).

Lemma cr_return : cr = return_. Proof. reflexivity. Qed.
Lemma nl_lf : nl = lf. Proof. reflexivity. Qed.

Lemma continues_literal refs ok b raw m : (forall r, raw <> nl :: r) -> literal refs ok raw m -> continues refs ok b raw m.
Proof. intros H1 H2. destruct (Ascii.ascii_dec b cr) as [E|E]; [right | left]; auto. Qed.

Lemma continues_other refs ok b raw m : b <> cr -> continues refs ok b raw m -> literal refs ok raw m.
Proof. intros H [[_ H1]|[H1 _]]; [exact H1 | congruence]. Qed.

Lemma continues_cr refs ok raw m : continues refs ok cr raw m -> literal refs ok (cr :: raw) (nl :: m).
Proof.
  intros [[H _]|[_ [(raw' & -> & H)|[H1 H2]]]]; [congruence | apply literal_crlf; exact H | apply literal_cr; auto].
Qed.

(** One byte that is not special. *)
Lemma continues_byte (refs : bool) (ok : ascii -> Prop) b b1 raw m acc : ok b ->
  continues refs ok b raw m ->
  exists m', continues refs ok b1 (b :: raw) m' /\
    rev acc ++ m' = rev (if Ascii.eqb b cr then nl :: acc else if Ascii.eqb b1 cr && Ascii.eqb b nl then acc else b :: acc) ++ m.
Proof.
  intros Hok Hc. destruct (Ascii.eqb b cr) eqn:E1.
  - apply Ascii.eqb_eq in E1. subst b. exists (nl :: m). split.
    + apply continues_literal; [intros r; discriminate | apply continues_cr, Hc].
    + cbn [rev]. rewrite <- app_assoc. reflexivity.
  - apply Ascii.eqb_neq in E1. apply continues_other in Hc; [|exact E1].
    destruct (Ascii.eqb b1 cr && Ascii.eqb b nl) eqn:E2.
    + apply andb_true_iff in E2 as [E2 E3]. apply Ascii.eqb_eq in E2, E3. subst b1 b. exists m. split; [|reflexivity].
      right. split; [reflexivity|]. left. eauto.
    + exists (b :: m). split.
      * destruct (Ascii.ascii_dec b1 cr) as [->|H1].
        -- rewrite Ascii.eqb_refl in E2. cbn [andb] in E2. apply Ascii.eqb_neq in E2.
           right. split; [reflexivity|]. right. split; [intros r; congruence|]. apply literal_byte; auto.
        -- left. split; [exact H1|]. apply literal_byte; auto.
      * cbn [rev]. rewrite <- app_assoc. reflexivity.
Qed.

Definition is_quote (q : option ascii) : Prop := forall c, q = Some c -> c = "'"%char \/ c = chr 34.

Lemma text_loop_sound fuel q : is_quote q -> forall b0 b1 acc s t r,
  text_loop fuel true q false b0 b1 acc s = Some (t, r) ->
  exists raw m, t = rev acc ++ m /\ continues true plain_byte b1 raw m /\ ~ occurs cdend (b0 :: b1 :: raw) /\
    match q with
    | None => s = raw ++ r /\ (forall c r', r = c :: r' -> c = "<"%char)
    | Some c => ~ In c raw /\ (s = raw ++ c :: r \/ (s = raw /\ r = []))
    end.
Proof.
  intros Hq. induction fuel as [|fuel IH]; intros b0 b1 acc s t r H; [discriminate|]. cbn [text_loop] in H.
  assert (Hnil : forall t', t' = rev acc -> exists m, t' = rev acc ++ m /\ continues true plain_byte b1 [] m /\ ~ occurs cdend [b0; b1]).
  { intros t' ->. exists []. rewrite app_nil_r. split; [reflexivity|]. split; [|apply cdend_two].
    apply continues_literal; [intros r'; discriminate | constructor]. }
  destruct s as [|b s].
  { injection H as <- <-. destruct (Hnil _ eq_refl) as (m & H1 & H2 & H3). exists [], m. repeat (split; [assumption|]).
    destruct q; [split; [intros [] | auto] | split; [reflexivity | discriminate]]. }
  destruct (Ascii.eqb b0 "]" && Ascii.eqb b1 "]" && Ascii.eqb b ">") eqn:E0; [discriminate|].
  rewrite !andb_true_r in H. destruct (Ascii.eqb b "<") eqn:E1.
  { destruct q; [discriminate|]. injection H as <- <-. apply Ascii.eqb_eq in E1. subst b.
    destruct (Hnil _ eq_refl) as (m & H1 & H2 & H3). exists [], m. repeat (split; [assumption|]). split; [reflexivity|].
    intros c r' [= <- _]. reflexivity. }
  destruct (match q with Some q0 => Ascii.eqb b q0 | None => false end) eqn:E2.
  { destruct q as [c|]; [|discriminate]. injection H as <- <-. apply Ascii.eqb_eq in E2. subst c.
    destruct (Hnil _ eq_refl) as (m & H1 & H2 & H3). exists [], m. repeat (split; [assumption|]). split; [intros [] | auto]. }
  destruct (Ascii.eqb b "&") eqn:E3.
  - apply Ascii.eqb_eq in E3. subst b. destruct (entity true s) as [[u rest]|] eqn:Ee; [|discriminate].
    destruct (entity_sound _ _ _ Ee) as (x & Hr & ->). apply IH in H as (raw & m & -> & Hc & Ho & Hs).
    exists (("&"%char :: x) ++ raw), (u ++ m). split; [rewrite rev_app_distr, rev_involutive, <- app_assoc; reflexivity|].
    pose proof (reference_inert _ _ Hr) as Hin.
    split; [|split].
    + apply continues_literal; [intros r'; discriminate|]. apply literal_reference; auto.
      apply continues_other in Hc; [exact Hc | discriminate].
    + cbn [app]. rewrite cdend_after by exact (proj1 (Forall_inv Hin)). rewrite cdend_skip.
      * rewrite <- cdend_zero. exact Ho.
      * eapply Forall_impl; [|exact (Forall_inv_tail Hin)]. intros c [Hc' _]. exact Hc'.
    + destruct q as [c|].
      * destruct Hs as [Hni Hs]. split.
        -- rewrite in_app_iff. intros [Hc'|Hc']; [|tauto]. rewrite Forall_forall in Hin. destruct (Hin _ Hc') as (_ & H1 & H2 & _).
           destruct (Hq c eq_refl); congruence.
        -- destruct Hs as [->|[-> ->]]; [left | right; split; [|reflexivity]]; cbn [app]; rewrite ?app_assoc; reflexivity.
      * destruct Hs as [-> Hs]. split; [cbn [app]; rewrite app_assoc; reflexivity | exact Hs].
  - apply IH in H as (raw & m & -> & Hc & Ho & Hs). apply Ascii.eqb_neq in E1, E3.
    destruct (continues_byte true plain_byte b b1 raw m acc (conj E1 E3) Hc) as (m' & Hc' & Em).
    exists (b :: raw), m'. split; [rewrite Em; reflexivity|]. split; [exact Hc'|]. split.
    + rewrite cdend_step. intros [(-> & -> & ->)|H]; [discriminate | tauto].
    + destruct q as [c|].
      * destruct Hs as [Hni Hs]. split.
        -- intros [->|H]; [rewrite Ascii.eqb_refl in E2; discriminate | tauto].
        -- destruct Hs as [->|[-> ->]]; [left | right]; auto.
      * destruct Hs as [-> Hs]. auto.
Qed.

Lemma text_loop_complete raw m : literal true plain_byte raw m ->
  forall q tail r, match q with
                   | None => (forall c r', tail = c :: r' -> c = "<"%char) /\ r = tail
                   | Some c => tail = c :: r /\ ~ In c raw /\ (c = "'"%char \/ c = chr 34)
                   end ->
  forall fuel b0 b1 acc, (b1 = cr -> forall r', raw <> nl :: r') -> ~ occurs cdend (b0 :: b1 :: raw) -> length (raw ++ tail) < fuel ->
  text_loop fuel true q false b0 b1 acc (raw ++ tail) = Some (rev acc ++ m, r).
Proof.
  assert (Hstep : forall c q tail rest fuel b0 b1 acc,
    match q with None => True | Some q => c <> q end -> plain_byte c -> ~ occurs cdend (b0 :: b1 :: c :: rest) ->
    text_loop (S fuel) true q false b0 b1 acc (c :: rest ++ tail) =
    text_loop fuel true q false b1 c
      (if Ascii.eqb c cr then nl :: acc else if Ascii.eqb b1 cr && Ascii.eqb c nl then acc else c :: acc) (rest ++ tail)).
  { intros c q tail rest fuel b0 b1 acc Hq [Hp1 Hp2] Ho. cbn [text_loop]. rewrite cdend_step in Ho.
    destruct (Ascii.eqb b0 "]" && Ascii.eqb b1 "]" && Ascii.eqb c ">") eqn:E.
    { exfalso. apply Ho. left. apply andb_true_iff in E as [E E3]. apply andb_true_iff in E as [E1 E2].
      apply Ascii.eqb_eq in E1, E2, E3. auto. }
    apply Ascii.eqb_neq in Hp1, Hp2. rewrite Hp1, Hp2. cbn [andb].
    assert (Eq : (match q with Some q0 => Ascii.eqb c q0 | None => false end) = false)
      by (destruct q; [apply Ascii.eqb_neq; exact Hq | reflexivity]).
    rewrite Eq. reflexivity. }
  intros H q tail r Ht.
  assert (Hret : forall c, c = cr \/ c = nl -> match q with None => True | Some q => c <> q end).
  { intros c Hc. destruct q as [q|]; [|exact I]. destruct Ht as (_ & _ & Hq). destruct Hc as [-> | ->], Hq as [-> | ->]; discriminate. }
  assert (Hcr : plain_byte cr) by (split; discriminate). assert (Hnl : plain_byte nl) by (split; discriminate).
  induction H as [|raw m H IH|raw m Hr H IH|c raw m Hc Hok H IH|x u raw m _ Hx H IH]; intros fuel b0 b1 acc Hb Ho Hf.
  - cbn [app] in *. rewrite app_nil_r. destruct fuel as [|fuel]; [lia|]. cbn [text_loop]. destruct tail as [|c tail].
    + destruct q; [destruct Ht; discriminate|]. destruct Ht as [_ ->]. reflexivity.
    + destruct q as [q|].
      * destruct Ht as (E & _ & Hq). injection E as -> <-.
        rewrite (proj2 (Ascii.eqb_neq q ">")) by (destruct Hq as [-> | ->]; discriminate).
        rewrite (proj2 (Ascii.eqb_neq q "<")) by (destruct Hq as [-> | ->]; discriminate).
        rewrite andb_false_r, Ascii.eqb_refl. reflexivity.
      * destruct Ht as [E ->]. rewrite (E c tail eq_refl). change (Ascii.eqb "<" ">") with false.
        rewrite andb_false_r. reflexivity.
  - cbn [app length] in Hf |- *. destruct fuel as [|[|fuel]]; try (rewrite ?app_length in Hf; cbn in Hf; lia).
    change (return_ :: lf :: raw ++ tail) with (cr :: (nl :: raw) ++ tail). change (return_ :: lf :: raw) with (cr :: nl :: raw) in Ho.
    assert (Ho1 : ~ occurs cdend (b1 :: cr :: nl :: raw)) by (rewrite cdend_step in Ho; tauto).
    assert (Ho2 : ~ occurs cdend (cr :: nl :: raw)) by (rewrite cdend_step in Ho1; tauto).
    rewrite (Hstep cr q tail (nl :: raw) (S fuel) b0 b1 acc (Hret cr (or_introl eq_refl)) Hcr Ho). cbn [app].
    rewrite (Hstep nl q tail raw fuel b1 cr _ (Hret nl (or_intror eq_refl)) Hnl Ho1).
    change (Ascii.eqb cr cr) with true. change (Ascii.eqb nl cr) with false. change (Ascii.eqb nl nl) with true. cbn [andb].
    rewrite IH.
    + cbn [rev]. rewrite <- app_assoc. reflexivity.
    + destruct q; [|exact Ht]. destruct Ht as (-> & Ht & Hq). repeat split; auto. intros Hi. apply Ht. do 2 right. exact Hi.
    + discriminate.
    + exact Ho2.
    + lia.
  - cbn [app length] in Hf |- *. destruct fuel as [|fuel]; [lia|].
    change return_ with cr in *. 
    rewrite (Hstep cr q tail raw fuel b0 b1 acc (Hret cr (or_introl eq_refl)) Hcr Ho). change (Ascii.eqb cr cr) with true. cbv iota. rewrite IH.
    + cbn [rev]. rewrite <- app_assoc. reflexivity.
    + destruct q; [|exact Ht]. destruct Ht as (-> & Ht & Hq). repeat split; auto. intros Hi. apply Ht. right. exact Hi.
    + intros _. exact Hr.
    + rewrite cdend_step in Ho. tauto.
    + lia.
  - cbn [app length] in Hf |- *. destruct fuel as [|fuel]; [lia|]. rewrite Hstep; auto.
    + apply Ascii.eqb_neq in Hc. change return_ with cr in Hc. rewrite Hc.
      assert (E : Ascii.eqb b1 cr && Ascii.eqb c nl = false).
      { destruct (Ascii.eqb b1 cr) eqn:E1; [|reflexivity]. apply Ascii.eqb_eq in E1. specialize (Hb E1 raw).
        apply Ascii.eqb_neq. congruence. }
      rewrite E, IH.
      * cbn [rev]. rewrite <- app_assoc. reflexivity.
      * destruct q; [|exact Ht]. destruct Ht as (-> & Ht & Hq). repeat split; auto. intros Hi. apply Ht. right. exact Hi.
      * apply Ascii.eqb_neq in Hc. congruence.
      * rewrite cdend_step in Ho. tauto.
      * lia.
    + destruct q as [q|]; [|exact I]. destruct Ht as (_ & Ht & _). intros ->. apply Ht. left. reflexivity.
  - destruct (entity_complete x u (raw ++ tail) Hx) as (y & -> & Ee).
    pose proof (reference_inert _ _ Hx) as Hin.
    destruct fuel as [|fuel]; [lia|]. rewrite <- app_assoc. cbn [app text_loop].
    change (Ascii.eqb "&" ">") with false. rewrite andb_false_r. change (Ascii.eqb "&" "<") with false. cbn [andb].
    assert (Eq : (match q with Some q0 => Ascii.eqb "&" q0 | None => false end) = false).
    { destruct q as [q|]; [|reflexivity]. destruct Ht as (_ & _ & [-> | ->]); reflexivity. }
    rewrite Eq. change (Ascii.eqb "&" "&") with true. cbn [negb andb]. rewrite Ee, IH.
    + rewrite rev_app_distr, rev_involutive, <- app_assoc. reflexivity.
    + destruct q; [|exact Ht]. destruct Ht as (-> & Ht & Hq). repeat split; auto. intros Hi. apply Ht. rewrite in_app_iff. auto.
    + discriminate.
    + cbn [app] in Ho. rewrite cdend_after in Ho by exact (proj1 (Forall_inv Hin)). rewrite cdend_skip in Ho.
      * rewrite cdend_zero. exact Ho.
      * eapply Forall_impl; [|exact (Forall_inv_tail Hin)]. intros c [Hc' _]. exact Hc'.
    + rewrite !app_length in *. cbn [length] in Hf. lia.
Qed.

(** ** CDATA *)

Definition any_byte (c : ascii) : Prop := True.

Lemma cdata_loop_sound fuel : forall b0 b1 acc s t r,
  text_loop fuel true None true b0 b1 acc s = Some (t, r) ->
  exists raw m, s = raw ++ ">"%char :: r /\ t = rev (skipn 2 (rev m ++ acc)) /\ continues false any_byte b1 raw m /\
    ~ occurs cdend (b0 :: b1 :: raw) /\ exists pre, b0 :: b1 :: raw = pre ++ bs "]]".
Proof.
  induction fuel as [|fuel IH]; intros b0 b1 acc s t r H; [discriminate|]. cbn [text_loop] in H.
  destruct s as [|b s]; [discriminate|].
  destruct (Ascii.eqb b0 "]" && Ascii.eqb b1 "]" && Ascii.eqb b ">") eqn:E0.
  - injection H as <- <-. apply andb_true_iff in E0 as [E0 E3]. apply andb_true_iff in E0 as [E1 E2].
    apply Ascii.eqb_eq in E1, E2, E3. subst. exists [], []. split; [reflexivity|]. split; [reflexivity|].
    split; [apply continues_literal; [discriminate | constructor]|]. split; [apply cdend_two|]. exists []. reflexivity.
  - rewrite !andb_false_r in H. apply IH in H as (raw & m & -> & -> & Hc & Ho & pre & Ep).
    destruct (continues_byte false any_byte b b1 raw m acc I Hc) as (m' & Hc' & Em).
    exists (b :: raw), m'. split; [reflexivity|]. split.
    { apply (f_equal (@rev ascii)) in Em. rewrite !rev_app_distr, !rev_involutive in Em. rewrite Em. reflexivity. }
    split; [exact Hc'|]. split.
    + rewrite cdend_step. intros [(-> & -> & ->)|H]; [discriminate | tauto].
    + exists (b0 :: pre). rewrite Ep. reflexivity.
Qed.

(** The last byte of a text that has no references. *)
Lemma literal_last (ok : ascii -> Prop) raw c m : c <> return_ -> c <> lf -> literal false ok (raw ++ [c]) m ->
  exists m0, m = m0 ++ [c] /\ literal false ok raw m0.
Proof.
  intros Hc1 Hc2. remember (raw ++ [c]) as s eqn:E. intros H. revert raw E.
  induction H as [|raw0 m H IH|raw0 m Hr H IH|x raw0 m Hx Hok H IH|x u raw0 m Hf Hx H IH]; intros raw E.
  - destruct raw; discriminate.
  - destruct raw as [|a [|b raw]]; cbn [app] in E.
    + congruence.
    + congruence.
    + injection E as <- <- E. destruct (IH raw E) as (m0 & -> & Hm). exists (lf :: m0). split; [reflexivity | constructor; exact Hm].
  - destruct raw as [|a raw]; cbn [app] in E; [congruence|]. injection E as <- E.
    destruct (IH raw E) as (m0 & -> & Hm). exists (lf :: m0). split; [reflexivity|]. apply literal_cr; [|exact Hm].
    intros r Er. apply (Hr (r ++ [c])). rewrite E, Er. reflexivity.
  - destruct raw as [|a raw]; cbn [app] in E.
    + injection E as -> ->. inversion H; subst; [|discriminate]. exists []. split; [reflexivity | constructor].
    + injection E as <- E. destruct (IH raw E) as (m0 & -> & Hm). exists (x :: m0). split; [reflexivity|].
      apply literal_byte; auto.
  - discriminate.
Qed.

Lemma literal_more (ok : ascii -> Prop) raw c m : c <> return_ -> c <> lf -> ok c -> literal false ok raw m -> literal false ok (raw ++ [c]) (m ++ [c]).
Proof.
  intros Hc1 Hc2 Hok H. induction H as [|raw m H IH|raw m Hr H IH|x raw m Hx Hokx H IH|x u raw m Hf Hx H IH]; cbn [app].
  - apply literal_byte; auto. constructor.
  - apply literal_crlf. exact IH.
  - apply literal_cr; [|exact IH]. intros r E. destruct raw as [|y raw]; cbn [app] in E.
    + congruence.
    + injection E as -> _. apply (Hr raw). reflexivity.
  - apply literal_byte; auto.
  - discriminate.
Qed.

Lemma literal_brackets (ok : ascii -> Prop) raw m : ok "]"%char -> (literal false ok (raw ++ bs "]]") (m ++ bs "]]") <-> literal false ok raw m).
Proof.
  intros Hok. change (bs "]]") with (["]"%char] ++ ["]"%char]). rewrite !app_assoc. split.
  - intros H. apply literal_last in H as (m1 & E & H); [|discriminate|discriminate]. apply app_inj_tail in E as [<- _].
    apply literal_last in H as (m1 & E & H); [|discriminate|discriminate]. apply app_inj_tail in E as [<- _]. exact H.
  - intros H. apply literal_more; [discriminate|discriminate|exact Hok|]. apply literal_more; [discriminate|discriminate|exact Hok|exact H].
Qed.

Lemma cdata_loop_complete raw m : literal false any_byte raw m ->
  forall tail fuel b0 b1 acc, (b1 = cr -> forall r', raw <> nl :: r') -> ~ occurs cdend (b0 :: b1 :: raw) ->
  exists c0 c1, (exists pre, b0 :: b1 :: raw = pre ++ [c0; c1]) /\
    text_loop (length raw + fuel) true None true b0 b1 acc (raw ++ tail) = text_loop fuel true None true c0 c1 (rev m ++ acc) tail.
Proof.
  assert (Hstep : forall c tail rest fuel b0 b1 acc, ~ occurs cdend (b0 :: b1 :: c :: rest) ->
    text_loop (S fuel) true None true b0 b1 acc (c :: rest ++ tail) =
    text_loop fuel true None true b1 c
      (if Ascii.eqb c cr then nl :: acc else if Ascii.eqb b1 cr && Ascii.eqb c nl then acc else c :: acc) (rest ++ tail)).
  { intros c tail rest fuel b0 b1 acc Ho. cbn [text_loop]. rewrite cdend_step in Ho.
    destruct (Ascii.eqb b0 "]" && Ascii.eqb b1 "]" && Ascii.eqb c ">") eqn:E.
    { exfalso. apply Ho. left. apply andb_true_iff in E as [E E3]. apply andb_true_iff in E as [E1 E2].
      apply Ascii.eqb_eq in E1, E2, E3. auto. }
    rewrite !andb_false_r. reflexivity. }
  intros H tail. induction H as [|raw m H IH|raw m Hr H IH|c raw m Hc Hok H IH|x u raw m Hf Hx H IH]; intros fuel b0 b1 acc Hb Ho.
  - exists b0, b1. split; [exists []; reflexivity | reflexivity].
  - change (return_ :: lf :: raw) with (cr :: nl :: raw) in *.
    assert (Ho1 : ~ occurs cdend (b1 :: cr :: nl :: raw)) by (rewrite cdend_step in Ho; tauto).
    assert (Ho2 : ~ occurs cdend (cr :: nl :: raw)) by (rewrite cdend_step in Ho1; tauto).
    destruct (IH fuel cr nl (nl :: acc)) as (c0 & c1 & (pre & Ep) & E); [discriminate | exact Ho2|].
    exists c0, c1. split; [exists (b0 :: b1 :: pre); rewrite Ep; reflexivity|].
    cbn [app length Nat.add]. change (nl :: raw ++ tail) with ((nl :: raw) ++ tail).
    rewrite Hstep by exact Ho. cbn [app]. rewrite Hstep by exact Ho1.
    change (Ascii.eqb cr cr) with true. change (Ascii.eqb nl cr) with false. change (Ascii.eqb nl nl) with true. cbn [andb].
    rewrite E. cbn [rev]. rewrite <- app_assoc. reflexivity.
  - change return_ with cr in *.
    assert (Ho1 : ~ occurs cdend (b1 :: cr :: raw)) by (rewrite cdend_step in Ho; tauto).
    destruct (IH fuel b1 cr (nl :: acc)) as (c0 & c1 & (pre & Ep) & E); [intros _; exact Hr | exact Ho1|].
    exists c0, c1. split; [exists (b0 :: pre); rewrite Ep; reflexivity|].
    cbn [app length Nat.add]. rewrite Hstep by exact Ho.
    change (Ascii.eqb cr cr) with true. cbv iota. rewrite E. cbn [rev]. rewrite <- app_assoc. reflexivity.
  - assert (Ho1 : ~ occurs cdend (b1 :: c :: raw)) by (rewrite cdend_step in Ho; tauto).
    destruct (IH fuel b1 c (c :: acc)) as (c0 & c1 & (pre & Ep) & E); [intros ->; contradiction Hc; reflexivity | exact Ho1|].
    exists c0, c1. split; [exists (b0 :: pre); rewrite Ep; reflexivity|].
    cbn [app length Nat.add]. rewrite Hstep by exact Ho.
    apply Ascii.eqb_neq in Hc. change return_ with cr in Hc. rewrite Hc.
    assert (E1 : Ascii.eqb b1 cr && Ascii.eqb c nl = false).
    { destruct (Ascii.eqb b1 cr) eqn:E1; [|reflexivity]. apply Ascii.eqb_eq in E1. specialize (Hb E1 raw).
      apply Ascii.eqb_neq. congruence. }
    rewrite E1, E. cbn [rev]. rewrite <- app_assoc. reflexivity.
  - discriminate.
Qed.

(** ** Pieces of text *)

Lemma xml_text_iff s : xml_text s = true <-> xml_string s.
Proof.
  split; [|apply xml_text_string]. unfold xml_text, runes.
  assert (H : forall fuel s, length s <= fuel -> forallb (fun p => xml_char (fst p)) (runes_fuel fuel s) = true -> xml_string s).
  { clear s. induction fuel as [|fuel IH]; intros s Hl Hx.
    - destruct s; [apply xml_string_nil | cbn in Hl; lia].
    - destruct s as [|c s]; [apply xml_string_nil|]. cbn [runes_fuel] in Hx.
      destruct (decode_rune c s) as [[r b] rest] eqn:Ed. cbn [forallb fst] in Hx. apply andb_true_iff in Hx as [H1 H2].
      destruct r as [n|]; [|discriminate]. cbn [xml_char] in H1. apply xml_rune_iff in H1.
      destruct (decode_rune_sound _ _ _ _ _ Ed) as [_ Eb].
      destruct (decode_rune_bytes _ _ _ _ _ Ed) as (E & Hb & _). rewrite E, Eb.
      apply xml_string_app; [exists [n]; split; [constructor; auto | cbn; rewrite app_nil_r; reflexivity]|].
      apply IH; [|exact H2]. apply (f_equal (@length ascii)) in E. rewrite app_length in E. cbn [length] in *. lia. }
  intros Hx. exact (H _ s (le_n _) Hx).
Qed.

Lemma plain_chars : forall c, plain_byte c <-> c <> "<"%char /\ c <> "&"%char.
Proof. reflexivity. Qed.

Theorem read_text_sound s t r : read_text true None false s = Some (t, r) ->
  exists raw, s = raw ++ r /\ text_spells t raw /\ forall c r', r = c :: r' -> c = "<"%char.
Proof.
  unfold read_text. destruct (text_loop (S (length s)) true None false (chr 0) (chr 0) [] s) as [[t0 r0]|] eqn:E; [|discriminate].
  cbn [bind fst]. destruct (xml_text t0) eqn:Ex; [|discriminate]. intros [= -> ->].
  apply text_loop_sound in E; [|discriminate]. destruct E as (raw & m & -> & Hc & Ho & -> & Hr).
  exists raw. split; [reflexivity|]. split; [|exact Hr]. cbn [rev app] in *.
  split; [|split].
  - apply continues_other in Hc; [exact Hc | discriminate].
  - rewrite cdend_zero in Ho. exact Ho.
  - apply xml_text_iff, Ex.
Qed.

Theorem read_text_complete t raw r : text_spells t raw -> (forall c r', r = c :: r' -> c = "<"%char) ->
  read_text true None false (raw ++ r) = Some (t, r).
Proof.
  intros (Hl & Ho & Hx) Hr. unfold read_text.
  rewrite (text_loop_complete raw t Hl None r r (conj Hr eq_refl)).
  - cbn [bind fst rev app]. apply xml_text_iff in Hx. rewrite Hx. reflexivity.
  - discriminate.
  - rewrite cdend_zero. exact Ho.
  - lia.
Qed.

(** The value of an attribute. *)
Theorem read_quoted_sound q s t r : q = "'"%char \/ q = chr 34 -> read_text true (Some q) false s = Some (t, r) ->
  exists raw, text_spells t raw /\ ~ In q raw /\ (s = raw ++ q :: r \/ r = []).
Proof.
  intros Hq. unfold read_text. destruct (text_loop (S (length s)) true (Some q) false (chr 0) (chr 0) [] s) as [[t0 r0]|] eqn:E; [|discriminate].
  cbn [bind fst]. destruct (xml_text t0) eqn:Ex; [|discriminate]. intros [= -> ->].
  apply text_loop_sound in E; [|intros c [= <-]; exact Hq]. destruct E as (raw & m & -> & Hc & Ho & Hn & Hs).
  exists raw. cbn [rev app] in *. split; [split; [|split]|split; [exact Hn | tauto]].
  - apply continues_other in Hc; [exact Hc | discriminate].
  - rewrite cdend_zero in Ho. exact Ho.
  - apply xml_text_iff, Ex.
Qed.

Theorem read_quoted_complete q t raw r : q = "'"%char \/ q = chr 34 -> text_spells t raw -> ~ In q raw ->
  read_text true (Some q) false (raw ++ q :: r) = Some (t, r).
Proof.
  intros Hq (Hl & Ho & Hx) Hn. unfold read_text.
  rewrite (text_loop_complete raw t Hl (Some q) (q :: r) r (conj eq_refl (conj Hn Hq))).
  - cbn [bind fst rev app]. apply xml_text_iff in Hx. rewrite Hx. reflexivity.
  - discriminate.
  - rewrite cdend_zero. exact Ho.
  - lia.
Qed.

Theorem read_cdata_sound s t r : read_text true None true s = Some (t, r) ->
  exists raw, s = raw ++ cdend ++ r /\ cdata_spells t raw.
Proof.
  unfold read_text. destruct (text_loop (S (length s)) true None true (chr 0) (chr 0) [] s) as [[t0 r0]|] eqn:E; [|discriminate].
  cbn [bind fst]. destruct (xml_text t0) eqn:Ex; [|discriminate]. intros [= -> ->].
  apply cdata_loop_sound in E as (raw' & m' & -> & -> & Hc & Ho & pre & Ep).
  apply continues_other in Hc; [|discriminate]. rewrite cdend_zero in Ho.
  destruct pre as [|a [|b pre]]; try discriminate. injection Ep as _ _ ->.
  destruct (literal_last any_byte (pre ++ ["]"%char]) "]" m') as (m1 & -> & H1); try discriminate.
  { rewrite <- app_assoc. exact Hc. }
  destruct (literal_last any_byte pre "]" m1) as (m2 & -> & H2); try discriminate; [exact H1|].
  exists pre. split; [rewrite <- app_assoc; reflexivity|].
  rewrite !rev_app_distr, app_nil_r in *. cbn [rev app skipn] in *. rewrite rev_involutive in *.
  split; [exact H2|]. split; [exact Ho | apply xml_text_iff, Ex].
Qed.

Theorem read_cdata_complete t raw r : cdata_spells t raw -> read_text true None true (raw ++ cdend ++ r) = Some (t, r).
Proof.
  intros (Hl & Ho & Hx). unfold read_text.
  assert (Hl' : literal false any_byte (raw ++ bs "]]") (t ++ bs "]]")) by (apply literal_brackets; [exact I | exact Hl]).
  destruct (cdata_loop_complete _ _ Hl' (">"%char :: r) (S (S (length r))) (chr 0) (chr 0) []) as (c0 & c1 & (pre & Ep) & E).
  { discriminate. }
  { rewrite cdend_zero. exact Ho. }
  replace (raw ++ cdend ++ r) with ((raw ++ bs "]]") ++ ">"%char :: r) by (rewrite <- app_assoc; reflexivity).
  replace (S (length ((raw ++ bs "]]") ++ ">"%char :: r))) with (length (raw ++ bs "]]") + S (S (length r)))
    by (rewrite (app_length _ (_ :: _)); cbn [length]; lia).
  rewrite E. 
  assert (Hc : c0 = "]"%char /\ c1 = "]"%char).
  { replace (chr 0 :: chr 0 :: raw ++ bs "]]") with (((chr 0 :: chr 0 :: raw) ++ ["]"%char]) ++ ["]"%char]) in Ep
      by (cbn [app]; rewrite <- app_assoc; reflexivity).
    replace (pre ++ [c0; c1]) with ((pre ++ [c0]) ++ [c1]) in Ep by (rewrite <- app_assoc; reflexivity).
    apply app_inj_tail in Ep as [Ep E1]. apply app_inj_tail in Ep as [_ E0]. auto. }
  destruct Hc as [-> ->]. cbn [text_loop]. rewrite !Ascii.eqb_refl. cbn [andb].
  rewrite rev_app_distr, app_nil_r. cbn [rev app skipn bs String.list_ascii_of_string]. rewrite rev_involutive. cbn [bind fst].
  apply xml_text_iff in Hx. rewrite Hx. reflexivity.
Qed.
