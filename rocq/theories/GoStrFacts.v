(** Lemmas about GoStr.v. *)
From Coq Require Import Lia ZifyBool ZifyNat ZifyN.
From Verif Require Import GoStr SpecStr.
Ltac Zify.zify_post_hook ::= Z.div_mod_to_equations.

Lemma code_chr n : (n < 256)%N -> code (chr n) = n.
Proof. apply N_ascii_embedding. Qed.

Lemma chr_code c : chr (code c) = c.
Proof. apply ascii_N_embedding. Qed.

Lemma code_lt c : (code c < 256)%N.
Proof. apply N_ascii_bounded. Qed.

Lemma code_inj c d : code c = code d -> c = d.
Proof. intros H. rewrite <- (chr_code c), <- (chr_code d), H. reflexivity. Qed.

Lemma str_eqb_eq a : forall b, str_eqb a b = true <-> a = b.
Proof.
  induction a as [|x a IH]; intros [|y b]; cbn [str_eqb]; try (split; congruence).
  rewrite andb_true_iff, Ascii.eqb_eq, IH. split.
  - intros [-> ->]. reflexivity.
  - intros H. inversion H. auto.
Qed.

Lemma str_eqb_refl a : str_eqb a a = true.
Proof. apply str_eqb_eq. reflexivity. Qed.

Lemma str_eqb_neq a b : str_eqb a b = false <-> a <> b.
Proof.
  rewrite <- str_eqb_eq. destruct (str_eqb a b); split; congruence.
Qed.

Lemma str_eqb_spec a b : reflect (a = b) (str_eqb a b).
Proof.
  destruct (str_eqb a b) eqn:E; constructor.
  - apply str_eqb_eq, E.
  - apply str_eqb_neq, E.
Qed.

Lemma str_eqb_sym a b : str_eqb a b = str_eqb b a.
Proof.
  destruct (str_eqb_spec a b), (str_eqb_spec b a); congruence.
Qed.

Lemma str_dec (a b : str) : {a = b} + {a <> b}.
Proof. apply (list_eq_dec ascii_dec). Qed.

Lemma has_prefix_spec p : forall s, has_prefix p s = true <-> exists r, s = p ++ r.
Proof.
  induction p as [|x p IH]; intros s; cbn [has_prefix app].
  - split; [intros _; exists s; reflexivity | reflexivity].
  - destruct s as [|y s].
    + split; [discriminate | intros [r H]; discriminate].
    + rewrite andb_true_iff, Ascii.eqb_eq, IH. split.
      * intros [-> [r ->]]. exists r. reflexivity.
      * intros [r H]. inversion H. eauto.
Qed.

Lemma has_prefix_app p r : has_prefix p (p ++ r) = true.
Proof. apply has_prefix_spec. eauto. Qed.

Lemma has_prefix_false p s : has_prefix p s = false -> forall r, s <> p ++ r.
Proof.
  intros H r ->. rewrite has_prefix_app in H. discriminate.
Qed.

Lemma has_prefix_length p s : has_prefix p s = true -> length p <= length s.
Proof.
  rewrite has_prefix_spec. intros [r ->]. rewrite app_length. lia.
Qed.

Lemma has_suffix_spec p s : has_suffix p s = true <-> exists r, s = r ++ p.
Proof.
  unfold has_suffix. rewrite has_prefix_spec. split.
  - intros [r H]. exists (rev r). rewrite <- (rev_involutive s), H, rev_app_distr, rev_involutive. reflexivity.
  - intros [r ->]. exists (rev r). apply rev_app_distr.
Qed.

(** First occurrence. *)
Lemma index_of_some p : forall s n, index_of p s = Some n ->
  exists r, s = firstn n s ++ p ++ r /\ n <= length s.
Proof.
  induction s as [|c s IH]; intros n; cbn [index_of].
  - destruct (has_prefix p []) eqn:E; [|discriminate].
    intros [= <-]. apply has_prefix_spec in E as [r Hr]. exists r. split; [exact Hr|cbn; lia].
  - destruct (has_prefix p (c :: s)) eqn:E.
    + intros [= <-]. apply has_prefix_spec in E as [r Hr]. exists r. split; [exact Hr|cbn; lia].
    + destruct (index_of p s) as [m|] eqn:Em; [|discriminate].
      intros [= <-]. destruct (IH m eq_refl) as [r [Hr Hl]].
      exists r. cbn [firstn app length]. split; [congruence|lia].
Qed.

(** A position is returned only if there is no earlier occurrence. *)
Lemma index_of_first p : forall s n, index_of p s = Some n ->
  forall m r, m < n -> skipn m s <> p ++ r.
Proof.
  induction s as [|c s IH]; intros n; cbn [index_of].
  - destruct (has_prefix p []); [intros [= <-] m r Hm; lia|discriminate].
  - destruct (has_prefix p (c :: s)) eqn:E.
    + intros [= <-] m r Hm. lia.
    + destruct (index_of p s) as [k|] eqn:Ek; [|discriminate].
      intros [= <-] [|m] r Hm; cbn [skipn].
      * apply has_prefix_false. exact E.
      * apply (IH k eq_refl). lia.
Qed.

Lemma index_of_none p : forall s, index_of p s = None -> forall a r, s <> a ++ p ++ r.
Proof.
  induction s as [|c s IH]; cbn [index_of]; intros H a r Hs.
  - destruct (has_prefix p []) eqn:E; [discriminate|].
    symmetry in Hs. apply app_eq_nil in Hs as [-> Hs]. apply app_eq_nil in Hs as [-> ->].
    cbn in E. discriminate.
  - destruct (has_prefix p (c :: s)) eqn:E; [discriminate|].
    destruct (index_of p s) eqn:Ei; [discriminate|].
    destruct a as [|x a]; cbn [app] in Hs.
    + rewrite Hs, has_prefix_app in E. discriminate.
    + injection Hs as -> Hs. apply (IH eq_refl _ _ Hs).
Qed.

Lemma index_of_app_none (c : ascii) a r :
  ~ In c a -> index_of [c] (a ++ c :: r) = Some (length a).
Proof.
  induction a as [|x a IH]; intros H; cbn [app index_of has_prefix].
  - rewrite Ascii.eqb_refl. reflexivity.
  - destruct (Ascii.eqb_spec c x) as [->|Hne]; [exfalso; apply H; left; reflexivity|].
    cbn [andb]. rewrite IH by (intros Hi; apply H; right; exact Hi). reflexivity.
Qed.

Lemma index_of_none_char (c : ascii) s : ~ In c s -> index_of [c] s = None.
Proof.
  induction s as [|x s IH]; intros H; cbn [index_of has_prefix].
  - reflexivity.
  - destruct (Ascii.eqb_spec c x) as [->|Hne]; [exfalso; apply H; left; reflexivity|].
    cbn [andb]. rewrite IH by (intros Hi; apply H; right; exact Hi). reflexivity.
Qed.

(** Splitting at the first occurrence of a one character separator. *)
Lemma split2_char (c : ascii) a r : ~ In c a -> split2 [c] (a ++ c :: r) = Some (a, r).
Proof.
  intros H. unfold split2. rewrite (index_of_app_none c a r H).
  cbn [length]. f_equal. f_equal.
  - rewrite firstn_app, Nat.sub_diag, firstn_all, firstn_O, app_nil_r. reflexivity.
  - rewrite skipn_app, skipn_all2 by lia. cbn [app].
    replace (length a + 1 - length a) with 1 by lia. reflexivity.
Qed.

Lemma split2_none (c : ascii) s : ~ In c s -> split2 [c] s = None.
Proof. intros H. unfold split2. rewrite index_of_none_char by exact H. reflexivity. Qed.

Lemma split2_some sep s a r : split2 sep s = Some (a, r) -> s = a ++ sep ++ r.
Proof.
  unfold split2. destruct (index_of sep s) as [n|] eqn:E; [|discriminate].
  intros [= <- <-]. destruct (index_of_some _ _ _ E) as [r [Hr Hl]].
  replace (skipn (n + length sep) s) with r; [exact Hr|].
  rewrite Hr at 1.
  rewrite app_assoc. rewrite skipn_app.
  rewrite skipn_all2 by (rewrite app_length, firstn_length; lia).
  rewrite app_length, firstn_length.
  replace (n + length sep - (Nat.min n (length s) + length sep)) with 0 by lia. reflexivity.
Qed.

Lemma split2_some_char (c : ascii) s a r :
  split2 [c] s = Some (a, r) -> s = a ++ c :: r /\ ~ In c a.
Proof.
  intros H. pose proof (split2_some _ _ _ _ H) as Hs. split; [exact Hs|].
  intros Hin. unfold split2 in H. destruct (index_of [c] s) as [n|] eqn:E; [|discriminate].
  injection H as Ha Hr.
  destruct (in_split _ _ Hin) as [l1 [l2 Hl]].
  apply (index_of_first _ _ _ E (length l1) (l2 ++ c :: r)).
  - rewrite <- Ha in Hl. apply (f_equal (@length ascii)) in Hl.
    rewrite firstn_length, app_length in Hl. cbn [length] in Hl. lia.
  - rewrite Hs, Hl. rewrite <- app_assoc. rewrite skipn_app, skipn_all, Nat.sub_diag. reflexivity.
Qed.

(** ** White space *)

Lemma ws1_spec c : ws1 c = true <-> (9 <= code c <= 13 \/ code c = 32)%N.
Proof. unfold ws1. pose proof (code_lt c). lia. Qed.

Definition is_cont (c : ascii) : bool := ((128 <=? code c) && (code c <? 192))%N.

Ltac chr_solve :=
  repeat match goal with
         | H : chr ?a = chr ?b |- _ => apply (f_equal code) in H
         | H : ?a = chr ?b |- _ => subst a
         end;
  repeat rewrite code_chr in * by lia.

(** The three shapes of an encoded white space character. *)
Lemma ws_char_cases w : ws_char w <->
  (exists c, w = [c] /\ ws1 c = true) \/
  (exists c d, w = [c; d] /\ ws2 c d = true) \/
  (exists c d e, w = [c; d; e] /\ ws3 c d e = true).
Proof.
  split.
  - intros [r [Hin ->]]. unfold space_runes in Hin. cbn [In] in Hin.
    repeat (destruct Hin as [<-|Hin];
            [ first [ left; eexists; split; [reflexivity|reflexivity]
                    | right; left; eexists; eexists; split; [reflexivity|reflexivity]
                    | right; right; eexists; eexists; eexists; split; [reflexivity|reflexivity] ] |]).
    destruct Hin.
  - intros [[c [-> H]] | [[c [d [-> H]]] | [c [d [e [-> H]]]]]].
    + apply ws1_spec in H. exists (code c). split.
      * cbn [In space_runes].
        assert (code c = 9 \/ code c = 10 \/ code c = 11 \/ code c = 12 \/ code c = 13 \/ code c = 32)%N by lia.
        intuition congruence.
      * unfold utf8. replace (code c <? 128)%N with true by lia. rewrite chr_code. reflexivity.
    + unfold ws2 in H.
      assert (code c = 194 /\ (code d = 133 \/ code d = 160))%N as [Hc Hd] by lia.
      rewrite <- (chr_code c), <- (chr_code d), Hc.
      destruct Hd as [-> | ->]; [exists 133%N | exists 160%N]; (split; [cbn; tauto | reflexivity]).
    + unfold ws3 in H.
      assert ((code c = 225 /\ code d = 154 /\ code e = 128) \/
              (code c = 226 /\ code d = 128 /\
               (code e = 128 \/ code e = 129 \/ code e = 130 \/ code e = 131 \/ code e = 132 \/
                code e = 133 \/ code e = 134 \/ code e = 135 \/ code e = 136 \/ code e = 137 \/
                code e = 138 \/ code e = 168 \/ code e = 169 \/ code e = 175)) \/
              (code c = 226 /\ code d = 129 /\ code e = 159) \/
              (code c = 227 /\ code d = 128 /\ code e = 128))%N as Hc by lia.
      rewrite <- (chr_code c), <- (chr_code d), <- (chr_code e).
      destruct Hc as [[-> [-> ->]] | [[-> [-> Hc]] | [[-> [-> ->]] | [-> [-> ->]]]]].
      * exists 5760%N. split; [cbn; tauto|reflexivity].
      * repeat (destruct Hc as [-> | Hc]; [match goal with |- ws_char [_; _; chr ?k] =>
          exists (8192 + (k - 128))%N end; split; [cbn; tauto|reflexivity]|]).
        rewrite Hc. exists 8239%N. split; [cbn; tauto|reflexivity].
      * exists 8287%N. split; [cbn; tauto|reflexivity].
      * exists 12288%N. split; [cbn; tauto|reflexivity].
Qed.

(** Byte facts used to separate the shapes. *)
Lemma ws1_ascii c : ws1 c = true -> (code c < 128)%N.
Proof. rewrite ws1_spec. lia. Qed.
Lemma ws2_bytes c d : ws2 c d = true -> (code c = 194 /\ 128 <= code d < 192)%N.
Proof. unfold ws2. lia. Qed.
Lemma ws3_bytes c d e : ws3 c d e = true ->
  (225 <= code c <= 227 /\ 128 <= code d < 192 /\ 128 <= code e < 192)%N.
Proof. unfold ws3. lia. Qed.

Ltac ws_facts :=
  repeat match goal with
         | H : ws1 _ = true |- _ => apply ws1_ascii in H
         | H : ws2 _ _ = true |- _ => apply ws2_bytes in H
         | H : ws3 _ _ _ = true |- _ => apply ws3_bytes in H
         end.

(** Unfolding equation of trim_left. *)
Lemma trim_left_ws1 c s : ws1 c = true -> trim_left (c :: s) = trim_left s.
Proof. intros H. cbn [trim_left]. rewrite H. reflexivity. Qed.
Lemma trim_left_ws2 c d s : ws2 c d = true -> trim_left (c :: d :: s) = trim_left s.
Proof.
  intros H. cbn [trim_left]. destruct (ws1 c) eqn:E1.
  - ws_facts. lia.
  - rewrite H. reflexivity.
Qed.
Lemma trim_left_ws3 c d e s : ws3 c d e = true -> trim_left (c :: d :: e :: s) = trim_left s.
Proof.
  intros H. cbn [trim_left]. destruct (ws1 c) eqn:E1; [ws_facts; lia|].
  destruct (ws2 c d) eqn:E2; [ws_facts; lia|]. rewrite H. reflexivity.
Qed.

Lemma trim_left_rev_ws1 c s : ws1 c = true -> trim_left_rev (c :: s) = trim_left_rev s.
Proof. intros H. cbn [trim_left_rev]. rewrite H. reflexivity. Qed.
Lemma trim_left_rev_ws2 c d s : ws2 d c = true -> trim_left_rev (c :: d :: s) = trim_left_rev s.
Proof.
  intros H. cbn [trim_left_rev]. destruct (ws1 c) eqn:E1.
  - ws_facts. lia.
  - rewrite H. reflexivity.
Qed.
Lemma trim_left_rev_ws3 c d e s : ws3 e d c = true -> trim_left_rev (c :: d :: e :: s) = trim_left_rev s.
Proof.
  intros H. cbn [trim_left_rev]. destruct (ws1 c) eqn:E1; [ws_facts; lia|].
  destruct (ws2 d c) eqn:E2; [ws_facts; lia|]. rewrite H. reflexivity.
Qed.

Lemma trim_left_char_app w s : ws_char w -> trim_left (w ++ s) = trim_left s.
Proof.
  rewrite ws_char_cases.
  intros [[c [-> H]] | [[c [d [-> H]]] | [c [d [e [-> H]]]]]]; cbn [app].
  - apply trim_left_ws1, H.
  - apply trim_left_ws2, H.
  - apply trim_left_ws3, H.
Qed.

Lemma trim_left_rev_char_app w s : ws_char w -> trim_left_rev (rev w ++ s) = trim_left_rev s.
Proof.
  rewrite ws_char_cases.
  intros [[c [-> H]] | [[c [d [-> H]]] | [c [d [e [-> H]]]]]]; cbn [rev app].
  - apply trim_left_rev_ws1, H.
  - apply trim_left_rev_ws2, H.
  - apply trim_left_rev_ws3, H.
Qed.

Lemma trim_left_run l s : ws_run l -> trim_left (l ++ s) = trim_left s.
Proof.
  induction 1 as [|w l Hw _ IH]; [reflexivity|].
  rewrite <- app_assoc, trim_left_char_app by exact Hw. exact IH.
Qed.

Lemma trim_left_rev_run r s : ws_run r -> trim_left_rev (rev r ++ s) = trim_left_rev s.
Proof.
  intros H. revert s. induction H as [|w l Hw _ IH]; intros s; [reflexivity|].
  rewrite rev_app_distr, <- app_assoc, IH, trim_left_rev_char_app by exact Hw. reflexivity.
Qed.

(** A string without a leading white space character is left alone. *)
Lemma trim_left_id s : (forall w s', ws_char w -> s <> w ++ s') -> trim_left s = s.
Proof.
  intros H. destruct s as [|c s]; [reflexivity|]. cbn [trim_left].
  destruct (ws1 c) eqn:E1.
  { exfalso. apply (H [c] s); [|reflexivity]. apply ws_char_cases. eauto. }
  destruct s as [|d s]; [reflexivity|].
  destruct (ws2 c d) eqn:E2.
  { exfalso. apply (H [c; d] s); [|reflexivity]. apply ws_char_cases. eauto 6. }
  destruct s as [|e s]; [reflexivity|].
  destruct (ws3 c d e) eqn:E3; [|reflexivity].
  exfalso. apply (H [c; d; e] s); [|reflexivity]. apply ws_char_cases. right; right; eauto 6.
Qed.

Lemma trim_left_rev_id s : (forall w s', ws_char w -> s <> rev w ++ s') -> trim_left_rev s = s.
Proof.
  intros H. destruct s as [|c s]; [reflexivity|]. cbn [trim_left_rev].
  destruct (ws1 c) eqn:E1.
  { exfalso. apply (H [c] s); [|reflexivity]. apply ws_char_cases. eauto. }
  destruct s as [|d s]; [reflexivity|].
  destruct (ws2 d c) eqn:E2.
  { exfalso. apply (H [d; c] s); [|reflexivity]. apply ws_char_cases. eauto 6. }
  destruct s as [|e s]; [reflexivity|].
  destruct (ws3 e d c) eqn:E3; [|reflexivity].
  exfalso. apply (H [e; d; c] s); [|reflexivity]. apply ws_char_cases. right; right; eauto 6.
Qed.

(** trim_left removes a run and what remains has no leading white space. *)
Lemma trim_left_spec n : forall s, length s <= n ->
  exists l, ws_run l /\ s = l ++ trim_left s /\
            forall w s', ws_char w -> trim_left s <> w ++ s'.
Proof.
  induction n as [|n IH]; intros s Hn.
  - destruct s; [|cbn in Hn; lia]. exists []. split; [constructor|]. split; [reflexivity|].
    intros w s' Hw. apply ws_char_cases in Hw.
    destruct Hw as [[c [-> _]] | [[c [d [-> _]]] | [c [d [e [-> _]]]]]]; discriminate.
  - assert (Hstep : forall w s', ws_char w -> s = w ++ s' ->
      exists l, ws_run l /\ s = l ++ trim_left s /\
                forall w s', ws_char w -> trim_left s <> w ++ s').
    { intros w s' Hw ->. destruct (IH s') as [l [Hl [Hs Ht]]].
      { rewrite app_length in Hn. apply ws_char_cases in Hw.
        destruct Hw as [[c [-> _]] | [[c [d [-> _]]] | [c [d [e [-> _]]]]]]; cbn in Hn; lia. }
      exists (w ++ l). rewrite trim_left_char_app by exact Hw.
      split; [constructor; assumption|]. split; [|exact Ht].
      rewrite <- app_assoc. f_equal. exact Hs. }
    assert (Hdone : (forall w s', ws_char w -> s <> w ++ s') ->
      exists l, ws_run l /\ s = l ++ trim_left s /\
                forall w s', ws_char w -> trim_left s <> w ++ s').
    { intros H. exists []. rewrite trim_left_id by exact H. split; [constructor|auto]. }
    destruct s as [|c s].
    { apply Hdone. intros w s' Hw. apply ws_char_cases in Hw.
      destruct Hw as [[c [-> _]] | [[c [d [-> _]]] | [c [d [e [-> _]]]]]]; discriminate. }
    destruct (ws1 c) eqn:E1.
    { apply (Hstep [c] s); [apply ws_char_cases; eauto|reflexivity]. }
    destruct s as [|d s].
    { apply Hdone. intros w s' Hw Heq. apply ws_char_cases in Hw.
      destruct Hw as [[c' [-> H]] | [[c' [d [-> H]]] | [c' [d [e [-> H]]]]]]; inversion Heq; congruence. }
    destruct (ws2 c d) eqn:E2.
    { apply (Hstep [c; d] s); [apply ws_char_cases; eauto 6|reflexivity]. }
    destruct s as [|e s].
    { apply Hdone. intros w s' Hw Heq. apply ws_char_cases in Hw.
      destruct Hw as [[c' [-> H]] | [[c' [d' [-> H]]] | [c' [d' [e [-> H]]]]]]; inversion Heq; congruence. }
    destruct (ws3 c d e) eqn:E3.
    { apply (Hstep [c; d; e] s); [apply ws_char_cases; right; right; eauto 6|reflexivity]. }
    apply Hdone. intros w s' Hw Heq. apply ws_char_cases in Hw.
    destruct Hw as [[c' [-> H]] | [[c' [d' [-> H]]] | [c' [d' [e' [-> H]]]]]]; inversion Heq; congruence.
Qed.

Lemma ws_run_app a b : ws_run a -> ws_run b -> ws_run (a ++ b).
Proof.
  induction 1 as [|w s Hw _ IH]; intros Hb; [exact Hb|].
  rewrite <- app_assoc. constructor; auto.
Qed.

Lemma ws_run_one w : ws_char w -> ws_run w.
Proof. intros H. rewrite <- (app_nil_r w). constructor; [exact H|constructor]. Qed.

Lemma trim_left_rev_spec n : forall s, length s <= n ->
  exists l, ws_run l /\ s = rev l ++ trim_left_rev s /\
            forall w s', ws_char w -> trim_left_rev s <> rev w ++ s'.
Proof.
  induction n as [|n IH]; intros s Hn.
  - destruct s; [|cbn in Hn; lia]. exists []. split; [constructor|]. split; [reflexivity|].
    intros w s' Hw. apply ws_char_cases in Hw.
    destruct Hw as [[c [-> _]] | [[c [d [-> _]]] | [c [d [e [-> _]]]]]]; discriminate.
  - assert (Hstep : forall w s', ws_char w -> s = rev w ++ s' ->
      exists l, ws_run l /\ s = rev l ++ trim_left_rev s /\
                forall w s', ws_char w -> trim_left_rev s <> rev w ++ s').
    { intros w s' Hw ->. destruct (IH s') as [l [Hl [Hs Ht]]].
      { rewrite app_length, rev_length in Hn. apply ws_char_cases in Hw.
        destruct Hw as [[c [-> _]] | [[c [d [-> _]]] | [c [d [e [-> _]]]]]]; cbn in Hn; lia. }
      exists (l ++ w). rewrite trim_left_rev_char_app by exact Hw.
      split; [apply ws_run_app; [assumption|apply ws_run_one, Hw]|]. split; [|exact Ht].
      rewrite rev_app_distr, <- app_assoc. f_equal. exact Hs. }
    assert (Hdone : (forall w s', ws_char w -> s <> rev w ++ s') ->
      exists l, ws_run l /\ s = rev l ++ trim_left_rev s /\
                forall w s', ws_char w -> trim_left_rev s <> rev w ++ s').
    { intros H. exists []. rewrite trim_left_rev_id by exact H. split; [constructor|auto]. }
    destruct s as [|c s].
    { apply Hdone. intros w s' Hw. apply ws_char_cases in Hw.
      destruct Hw as [[c [-> _]] | [[c [d [-> _]]] | [c [d [e [-> _]]]]]]; discriminate. }
    destruct (ws1 c) eqn:E1.
    { apply (Hstep [c] s); [apply ws_char_cases; eauto|reflexivity]. }
    destruct s as [|d s].
    { apply Hdone. intros w s' Hw Heq. apply ws_char_cases in Hw.
      destruct Hw as [[c' [-> H]] | [[c' [d [-> H]]] | [c' [d [e [-> H]]]]]]; inversion Heq; congruence. }
    destruct (ws2 d c) eqn:E2.
    { apply (Hstep [d; c] s); [apply ws_char_cases; eauto 6|reflexivity]. }
    destruct s as [|e s].
    { apply Hdone. intros w s' Hw Heq. apply ws_char_cases in Hw.
      destruct Hw as [[c' [-> H]] | [[c' [d' [-> H]]] | [c' [d' [e [-> H]]]]]]; inversion Heq; congruence. }
    destruct (ws3 e d c) eqn:E3.
    { apply (Hstep [e; d; c] s); [apply ws_char_cases; right; right; eauto 6|reflexivity]. }
    apply Hdone. intros w s' Hw Heq. apply ws_char_cases in Hw.
    destruct Hw as [[c' [-> H]] | [[c' [d' [-> H]]] | [c' [d' [e' [-> H]]]]]]; inversion Heq; congruence.
Qed.

(** The first byte of a run is not a continuation byte, the last byte of a
    string ending before a run cannot complete with it. *)
Lemma ws_run_head c s : ws_run (c :: s) -> (code c < 128 \/ 194 <= code c <= 227)%N.
Proof.
  intros H. inversion H as [|w s' Hw Hr Heq].
  apply ws_char_cases in Hw.
  destruct Hw as [[c' [-> Hc]] | [[c' [d' [-> Hc]]] | [c' [d' [e' [-> Hc]]]]]];
    inversion Heq; subst; ws_facts; lia.
Qed.

(** A trimmed string followed by a run has no leading white space unless it is
    empty. *)
Lemma no_lead_app t r :
  (forall w s', ws_char w -> t <> w ++ s') -> t <> [] -> ws_run r ->
  forall w s', ws_char w -> t ++ r <> w ++ s'.
Proof.
  intros Ht Hne Hr w s' Hw Heq.
  assert (Hpre : forall c, ws_char c -> forall x, t <> c ++ x) by (intros; apply Ht; assumption).
  apply ws_char_cases in Hw.
  destruct t as [|c t]; [congruence|].
  destruct Hw as [[c' [-> H]] | [[c' [d' [-> H]]] | [c' [d' [e' [-> H]]]]]]; cbn [app] in Heq.
  - injection Heq as <- _. apply (Hpre [c]) with (x := t); [apply ws_char_cases; eauto|reflexivity].
  - injection Heq as <- Heq. destruct t as [|d t]; cbn [app] in Heq.
    + rewrite Heq in Hr. apply ws_run_head in Hr. ws_facts. lia.
    + injection Heq as <- _. apply (Hpre [c; d]) with (x := t); [apply ws_char_cases; eauto 6|reflexivity].
  - injection Heq as <- Heq. destruct t as [|d t]; cbn [app] in Heq.
    + rewrite Heq in Hr. apply ws_run_head in Hr. ws_facts. lia.
    + injection Heq as <- Heq. destruct t as [|e t]; cbn [app] in Heq.
      * rewrite Heq in Hr. apply ws_run_head in Hr. ws_facts. lia.
      * injection Heq as <- _. apply (Hpre [c; d; e]) with (x := t);
          [apply ws_char_cases; right; right; eauto 6|reflexivity].
Qed.

Lemma no_ws_nil w s : ws_char w -> [] <> w ++ s.
Proof.
  intros Hw. apply ws_char_cases in Hw.
  destruct Hw as [[c [-> _]] | [[c [d [-> _]]] | [c [d [e [-> _]]]]]]; discriminate.
Qed.

Lemma trimmed_nil : trimmed [].
Proof.
  split; intros w s' Hw.
  - apply no_ws_nil, Hw.
  - apply ws_char_cases in Hw.
    destruct Hw as [[c [-> _]] | [[c [d [-> _]]] | [c [d [e [-> _]]]]]]; destruct s'; discriminate.
Qed.

Lemma trim_right_run t r :
  (forall w s', ws_char w -> t <> s' ++ w) -> ws_run r -> trim_right (t ++ r) = t.
Proof.
  intros Ht Hr. unfold trim_right.
  rewrite rev_app_distr, trim_left_rev_run by exact Hr.
  rewrite trim_left_rev_id; [apply rev_involutive|].
  intros w s' Hw Heq. apply (Ht w (rev s') Hw).
  rewrite <- (rev_involutive t), Heq, rev_app_distr, rev_involutive. reflexivity.
Qed.

Lemma trim_space_complete s t : trims_to s t -> trim_space s = t.
Proof.
  intros [l [r [Hl [Hr [-> [Ht1 Ht2]]]]]].
  unfold trim_space. rewrite trim_left_run by exact Hl.
  destruct t as [|c t].
  - cbn [app]. rewrite <- (app_nil_r r), trim_left_run by exact Hr. reflexivity.
  - rewrite trim_left_id.
    + apply trim_right_run; assumption.
    + apply no_lead_app; [assumption|discriminate|assumption].
Qed.

Lemma trim_space_sound s : trims_to s (trim_space s).
Proof.
  unfold trims_to, trim_space, trim_right.
  destruct (trim_left_spec (length s) s (le_n _)) as [l [Hl [Hs Ht]]].
  set (u := trim_left s) in *. clearbody u.
  destruct (trim_left_rev_spec (length (rev u)) (rev u) (le_n _)) as [r [Hr [Hu Hv]]].
  set (v := trim_left_rev (rev u)) in *. clearbody v.
  exists l, r. split; [exact Hl|]. split; [exact Hr|].
  assert (Hu' : u = rev v ++ r).
  { rewrite <- (rev_involutive u), Hu, rev_app_distr, rev_involutive. reflexivity. }
  split; [rewrite Hs, Hu'; reflexivity|].
  split; intros w s' Hw Heq.
  - apply (Ht w (s' ++ r) Hw). rewrite Hu', Heq, app_assoc. reflexivity.
  - apply (Hv w (rev s') Hw). rewrite <- (rev_involutive v), Heq, rev_app_distr. reflexivity.
Qed.

Theorem trim_space_iff s t : trim_space s = t <-> trims_to s t.
Proof.
  split; [intros <-; apply trim_space_sound | apply trim_space_complete].
Qed.

Lemma trim_space_id t : trimmed t -> trim_space t = t.
Proof.
  intros H. apply trim_space_iff. exists [], []. repeat split; try constructor; try apply H.
  rewrite app_nil_r. reflexivity.
Qed.

Lemma trim_space_trimmed s : trimmed (trim_space s).
Proof. destruct (trim_space_sound s) as [l [r [_ [_ [_ H]]]]]. exact H. Qed.

Lemma trim_space_idem s : trim_space (trim_space s) = trim_space s.
Proof. apply trim_space_id, trim_space_trimmed. Qed.

Lemma trim_space_surround l t r : ws_run l -> ws_run r -> trimmed t ->
  trim_space (l ++ t ++ r) = t.
Proof. intros Hl Hr Ht. apply trim_space_iff. exists l, r. auto. Qed.

Lemma trim_space_around l s r : ws_run l -> ws_run r ->
  trim_space (l ++ s ++ r) = trim_space s.
Proof.
  intros Hl Hr. apply trim_space_iff.
  destruct (trim_space_sound s) as [l' [r' [Hl' [Hr' [Hs Ht]]]]].
  exists (l ++ l'), (r' ++ r).
  split; [apply ws_run_app; assumption|]. split; [apply ws_run_app; assumption|].
  split; [|exact Ht]. rewrite Hs at 1. rewrite <- !app_assoc. reflexivity.
Qed.

Lemma trim_space_nil s : ws_run s -> trim_space s = [].
Proof.
  intros H. apply trim_space_iff. exists s, []. split; [exact H|]. split; [constructor|].
  split; [rewrite app_nil_r; reflexivity|apply trimmed_nil].
Qed.

Lemma trim_space_nil_iff s : trim_space s = [] <-> ws_run s.
Proof.
  split; [|apply trim_space_nil].
  intros H. destruct (trim_space_sound s) as [l [r [Hl [Hr [Hs _]]]]].
  rewrite H in Hs. rewrite Hs. cbn [app]. apply ws_run_app; assumption.
Qed.

(** Strings whose first and last bytes are printable ASCII are trimmed. *)
Definition plain (c : ascii) : bool := ((33 <=? code c) && (code c <? 127))%N.

Lemma trimmed_plain c s d : plain c = true -> plain d = true ->
  (exists s', c :: s = s' ++ [d]) -> trimmed (c :: s).
Proof.
  unfold plain. intros Hc Hd [s0 Hs0]. split; intros w s' Hw Heq; apply ws_char_cases in Hw.
  - destruct Hw as [[c' [-> H]] | [[c' [d' [-> H]]] | [c' [d' [e' [-> H]]]]]];
      injection Heq as <- Heq.
    + apply ws1_spec in H. lia.
    + ws_facts. lia.
    + ws_facts. lia.
  - rewrite Hs0 in Heq.
    destruct Hw as [[c' [-> H]] | [[c' [d' [-> H]]] | [c' [d' [e' [-> H]]]]]].
    + apply app_inj_tail in Heq as [_ <-]. apply ws1_spec in H. lia.
    + change [c'; d'] with ([c'] ++ [d']) in Heq. rewrite app_assoc in Heq.
      apply app_inj_tail in Heq as [_ <-]. ws_facts. lia.
    + change [c'; d'; e'] with ([c'; d'] ++ [e']) in Heq. rewrite app_assoc in Heq.
      apply app_inj_tail in Heq as [_ <-]. ws_facts. lia.
Qed.

Lemma trimmed_all_plain s : forallb plain s = true -> trimmed s.
Proof.
  intros H. destruct s as [|c s]; [apply trimmed_nil|].
  rewrite forallb_forall in H.
  destruct (exists_last (l := c :: s)) as [s' [d Hd]]; [discriminate|].
  apply (trimmed_plain c s d).
  - apply H. left. reflexivity.
  - apply H. rewrite Hd. apply in_or_app. right. left. reflexivity.
  - exists s'. exact Hd.
Qed.

(** A decidable sufficient test for [trimmed]. *)
Definition trimmedb (s : str) : bool := str_eqb (trim_space s) s.

Lemma trimmedb_spec s : trimmedb s = true <-> trimmed s.
Proof.
  unfold trimmedb. rewrite str_eqb_eq. split.
  - intros H. rewrite <- H. apply trim_space_trimmed.
  - apply trim_space_id.
Qed.

(** ** Trimming with a one character cutset *)

Lemma trim_left_char_repeat c n s : (forall s', s <> c :: s') ->
  trim_left_char c (repeat c n ++ s) = s.
Proof.
  intros H. induction n as [|n IH]; cbn [repeat app trim_left_char].
  - destruct s as [|x s]; [reflexivity|]. cbn [trim_left_char].
    destruct (Ascii.eqb_spec x c) as [->|]; [exfalso; apply (H s); reflexivity|reflexivity].
  - rewrite Ascii.eqb_refl. exact IH.
Qed.

Lemma rev_repeat {A} (x : A) n : rev (repeat x n) = repeat x n.
Proof.
  induction n as [|n IH]; [reflexivity|]. cbn [repeat rev]. rewrite IH.
  clear. induction n as [|n IH]; [reflexivity|]. cbn [repeat app]. f_equal. exact IH.
Qed.

Lemma trim_right_char_repeat c n s : (forall s', s <> s' ++ [c]) ->
  trim_right_char c (s ++ repeat c n) = s.
Proof.
  intros H. unfold trim_right_char. rewrite rev_app_distr, rev_repeat, trim_left_char_repeat.
  - apply rev_involutive.
  - intros s' Heq. apply (H (rev s')). rewrite <- (rev_involutive s), Heq. reflexivity.
Qed.

Lemma trim_left_char_spec c s :
  exists n, s = repeat c n ++ trim_left_char c s /\ forall s', trim_left_char c s <> c :: s'.
Proof.
  induction s as [|x s [n [Hs Ht]]]; cbn [trim_left_char].
  - exists 0. split; [reflexivity|]. intros s'. discriminate.
  - destruct (Ascii.eqb_spec x c) as [->|Hne].
    + exists (S n). cbn [repeat app]. split; [congruence|exact Ht].
    + exists 0. split; [reflexivity|]. intros s' [= -> _]. congruence.
Qed.

Lemma trim_right_char_spec c s :
  exists n, s = trim_right_char c s ++ repeat c n /\ forall s', trim_right_char c s <> s' ++ [c].
Proof.
  unfold trim_right_char.
  destruct (trim_left_char_spec c (rev s)) as [n [Hs Ht]].
  exists n. split.
  - rewrite <- (rev_involutive s) at 1. rewrite Hs at 1. rewrite rev_app_distr, rev_repeat. reflexivity.
  - intros s' Heq. apply (Ht (rev s')).
    rewrite <- (rev_involutive (trim_left_char c (rev s))), Heq, rev_app_distr. reflexivity.
Qed.

(** ** Replacement *)

Lemma replace_first_app old new a r : ~ In old a ->
  replace_first old new (a ++ old :: r) = a ++ new :: r.
Proof.
  induction a as [|x a IH]; intros H; cbn [app replace_first].
  - rewrite Ascii.eqb_refl. reflexivity.
  - destruct (Ascii.eqb_spec x old) as [->|]; [exfalso; apply H; left; reflexivity|].
    rewrite IH; [reflexivity|]. intros Hi. apply H. right. exact Hi.
Qed.

Lemma replace_first_none old new s : ~ In old s -> replace_first old new s = s.
Proof.
  induction s as [|x s IH]; intros H; cbn [replace_first]; [reflexivity|].
  destruct (Ascii.eqb_spec x old) as [->|]; [exfalso; apply H; left; reflexivity|].
  rewrite IH; [reflexivity|]. intros Hi. apply H. right. exact Hi.
Qed.
