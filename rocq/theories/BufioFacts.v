(** Facts about Bufio: what a buffered reader returns depends on the bytes its
    reader delivers only. *)
From Coq Require Import Lia.
From Verif Require Import GoStr GoTime Types Enums EnumTables Records Common Messages Codec Schema
  Document Xml Headers Leaves Wire Bufio SpecReader.
From Verif Require GoStrFacts ExtendFacts.

Lemma attempts_ended n : forall room r, ended r ->
  exists r', attempts n room r = ([], true, r') /\ ended r'.
Proof.
  induction n as [|n IH]; intros room r E; cbn [attempts].
  - exists r. split; [reflexivity | exact E].
  - destruct E as [r F]. specialize (F room). destruct (read r room) as [b failed r'] eqn:R.
    destruct (F b failed r' eq_refl) as [-> E']. destruct failed.
    + exists r'. split; [reflexivity | exact E'].
    + apply IH, E'.
Qed.

(** What remains after a piece: nothing, or a reader that delivers it. *)
Definition goes_on (failed : bool) (r : reader) (s : str) : Prop :=
  s = [] /\ ended r \/ failed = false /\ delivering 99 r s.

Lemma attempts_delivering idle : forall room r s, 0 < room -> delivering idle r s ->
  exists d failed r' s', attempts (S idle) room r = (d, failed, r') /\
    length d <= room /\ s = d ++ s' /\ goes_on failed r' s' /\ (failed = true \/ d <> []).
Proof.
  induction idle as [|idle IH]; intros room r s H0 [F]; cbn [attempts];
    specialize (F room); destruct (read r room) as [b failed r'] eqn:R;
    destruct (F b failed r' H0 eq_refl) as (L & s' & -> & [[-> E] | [-> [[Hb D] | [-> (i & Hi & D)]]]]).
  - destruct failed; [exists b, true, r', []; unfold goes_on; auto 10|].
    destruct b as [|c b].
    + exists [], true, r', []. unfold goes_on; auto 10.
    + exists (c :: b), false, r', []. unfold goes_on. repeat split; auto. right. discriminate.
  - destruct b as [|c b]; [congruence|]. exists (c :: b), false, r', s'. unfold goes_on; auto 10.
  - discriminate.
  - destruct failed; [exists b, true, r', []; unfold goes_on; auto 10|].
    destruct b as [|c b].
    + destruct (attempts_ended (S idle) room r' E) as (r2 & A & E2). cbn [attempts] in A.
      exists [], true, r2, []. unfold goes_on; auto 10.
    + exists (c :: b), false, r', []. unfold goes_on. repeat split; auto. right. discriminate.
  - destruct b as [|c b]; [congruence|]. exists (c :: b), false, r', s'. unfold goes_on; auto 10.
  - inversion Hi; subst i. cbn [app]. exact (IH room r' s' H0 D).
Qed.

(** The reader is about to return the bytes [s]. *)
Definition holds (b : buffered) (s : str) : Prop :=
  length (b_data b) <= window /\ exists s', s = b_data b ++ s' /\ goes_on (b_err b) (b_from b) s'.

Lemma fill_holds b s : holds b s -> b_err b = false -> length (b_data b) < window ->
  exists b' d, fill b = Some b' /\ holds b' s /\ b_data b' = b_data b ++ d /\
    (b_err b' = true \/ d <> []) /\ b_last b' = b_last b.
Proof.
  intros (L & s' & -> & G) He Hl. unfold fill.
  destruct (Nat.leb_spec window (length (b_data b))) as [HH|_]; [lia|].
  destruct G as [[-> E] | [_ D]].
  - destruct (attempts_ended 100 (window - length (b_data b)) _ E) as (r' & A & E').
    rewrite A. exists (mkBuffered (b_data b ++ []) 0 true (b_last b) r'), [].
    split; [reflexivity|]. unfold holds. cbn [b_data b_err b_from b_last]. rewrite app_nil_r.
    repeat split; auto. exists []. split; [now rewrite app_nil_r|]. left; auto.
  - destruct (attempts_delivering 99 (window - length (b_data b)) _ _ ltac:(lia) D)
      as (d & failed & r' & s2 & A & Ld & -> & G & P).
    rewrite A. exists (mkBuffered (b_data b ++ d) 0 failed (b_last b) r'), d.
    split; [reflexivity|]. unfold holds. cbn [b_data b_err b_from b_last].
    rewrite app_length. repeat split; auto; [lia|].
    exists s2. split; [apply app_assoc | exact G].
Qed.

Lemma goes_on_error r s : goes_on true r s -> s = [] /\ ended r.
Proof. intros [H | [H _]]; [exact H | discriminate]. Qed.

Lemma peek_loop_holds rounds : forall b s, holds b s -> window - length (b_data b) + 1 < rounds ->
  exists b', peek_loop rounds window b = Some b' /\ holds b' s /\
    (b_err b' = true \/ length (b_data b') = window).
Proof.
  induction rounds as [|rounds IH]; intros b s H Hr; [lia|]. cbn [peek_loop].
  destruct (Nat.ltb_spec (length (b_data b)) window) as [L|L]; cbn [andb].
  2:{ exists b. split; [reflexivity|]. split; [exact H|]. right. destruct H. lia. }
  destruct (b_err b) eqn:E; cbn [negb].
  { exists b. auto. }
  destruct (fill_holds b s H E L) as (b' & d & F & H' & Hd & P & _). rewrite F. cbn [bind].
  destruct (b_err b') eqn:E'.
  - destruct rounds as [|rounds]; [lia|]. cbn [peek_loop]. rewrite E', Bool.andb_false_r.
    exists b'. auto.
  - destruct P as [P | P]; [congruence|]. apply IH; [exact H'|].
    rewrite Hd, app_length. destruct d; [congruence|]. cbn [length]. lia.
Qed.

Lemma peek_holds b s : holds b s ->
  exists b', peek window b = Some (firstn window s, b') /\ holds b' s.
Proof.
  intros H. unfold peek.
  assert (H0 : holds (mkBuffered (b_data b) (b_start b) (b_err b) None (b_from b)) s) by exact H.
  destruct (peek_loop_holds (S (S window)) _ s H0) as (b' & P & H' & C).
  { destruct H0 as [L _]. cbn [b_data] in *. lia. }
  unfold peek in *. rewrite P. cbn [bind]. clear P.
  destruct H' as (L & s' & Es & G).
  eexists. split; [f_equal; f_equal|].
  - destruct C as [C | C].
    + rewrite C in G. apply goes_on_error in G. destruct G as [-> _]. now rewrite Es, app_nil_r.
    + rewrite Es, firstn_app, C, Nat.sub_diag. cbn [firstn]. now rewrite app_nil_r.
  - unfold holds. cbn [b_data b_err b_from]. split; [exact L|]. exists s'. split; [exact Es|].
    destruct (Nat.ltb_spec (length (b_data b')) window) as [L2|L2]; [|exact G].
    destruct C as [C | C]; [|lia].
    rewrite C in G. apply goes_on_error in G. destruct G as [-> E]. left; auto.
Qed.

(** *** ReadSlice *)

Lemma index_char c : forall s i, index_of [c] s = Some i ->
  firstn (S i) s = firstn i s ++ [c] /\ ~ In c (firstn i s) /\ i < length s.
Proof.
  induction s as [|x s IH]; intros i H; cbn [index_of has_prefix] in H.
  - discriminate.
  - rewrite Bool.andb_true_r in H. destruct (Ascii.eqb_spec c x) as [->|N].
    + injection H as <-. cbn. repeat split; [tauto | lia].
    + destruct (index_of [c] s) as [j|] eqn:E; [|discriminate]. injection H as <-.
      destruct (IH j eq_refl) as (A & B & C). cbn [firstn app length]. cbn [firstn] in A. rewrite A.
      repeat split; [|lia]. intros [<- | I]; [now apply N | now apply B].
Qed.

Lemma index_char_none c : forall s, index_of [c] s = None -> ~ In c s.
Proof.
  induction s as [|x s IH]; intros H; [intros []|].
  cbn [index_of has_prefix] in H. rewrite Bool.andb_true_r in H.
  destruct (Ascii.eqb_spec c x) as [->|N]; [discriminate|].
  destruct (index_of [c] s) as [j|] eqn:E; [discriminate|].
  intros [<- | I]; [now apply N | now apply IH].
Qed.

(** The search may skip what has been searched. *)
Lemma index_skip c : forall k s, ~ In c (firstn k s) -> k <= length s ->
  index_of [c] s = match index_of [c] (skipn k s) with Some i => Some (i + k) | None => None end.
Proof.
  induction k as [|k IH]; intros s N L.
  - cbn [skipn]. destruct (index_of [c] s); [now rewrite Nat.add_0_r | reflexivity].
  - destruct s as [|x s]; [cbn in L; lia|]. cbn [firstn] in N. cbn [skipn].
    cbn [index_of has_prefix]. rewrite Bool.andb_true_r.
    destruct (Ascii.eqb_spec c x) as [->|Nx]; [exfalso; apply N; left; reflexivity|].
    rewrite (IH s); [|intros I; apply N; right; exact I | cbn in L; lia].
    destruct (index_of [c] (skipn k s)); [now rewrite Nat.add_succ_r | reflexivity].
Qed.

Lemma last_byte_end a c o : last_byte (a ++ [c]) o = Some c.
Proof. unfold last_byte. now rewrite rev_app_distr. Qed.

Lemma slice_loop_holds rounds : forall k c b s, holds b s ->
  k <= length (b_data b) -> ~ In c (firstn k (b_data b)) ->
  window - length (b_data b) + 1 < rounds ->
  exists line failed b', slice_loop rounds k c b = Some (line, failed, b') /\
    match index_of [c] s with
    | Some i =>
        if Nat.leb window i then failed = true
        else failed = false /\ line = firstn (S i) s /\ b_last b' = Some c /\
             (exists n, b_start b' = S n) /\ length (b_data b') < window /\ holds b' (skipn (S i) s)
    | None => failed = true
    end.
Proof.
  induction rounds as [|rounds IH]; intros k c b s H Hk Hn Hr; [lia|]. cbn [slice_loop].
  pose proof (index_skip c k (b_data b) Hn Hk) as IK.
  destruct H as (L & s' & -> & G).
  destruct (index_of [c] (skipn k (b_data b))) as [i|] eqn:I.
  - do 3 eexists. split; [reflexivity|].
    rewrite (ExtendFacts.index_of_ext [c] _ _ s' IK).
    destruct (index_char c _ _ IK) as (A & B & C).
    destruct (Nat.leb_spec window (i + k)) as [W|W]; [lia|].
    split; [reflexivity|].
    split. { rewrite firstn_app. replace (S (i + k) - length (b_data b)) with 0 by lia.
             cbn [firstn]. now rewrite app_nil_r. }
    cbn [b_last b_start b_data b_err b_from].
    split. { rewrite A. apply last_byte_end. }
    split. { exists (b_start b + (i + k)). lia. }
    assert (Ls : length (skipn (S (i + k)) (b_data b)) < window) by (rewrite skipn_length; lia).
    split; [exact Ls|].
    unfold holds. cbn [b_data b_err b_from]. split; [lia|]. exists s'. split; [|exact G].
    rewrite skipn_app. replace (S (i + k) - length (b_data b)) with 0 by lia. reflexivity.
  - pose proof (index_char_none c _ IK) as N0.
    destruct (b_err b) eqn:E.
    { do 3 eexists. split; [reflexivity|].
      destruct (goes_on_error _ _ G) as [-> _]. rewrite app_nil_r, IK. reflexivity. }
    destruct (Nat.leb_spec window (length (b_data b))) as [W|W].
    { do 3 eexists. split; [reflexivity|].
      destruct (index_of [c] (b_data b ++ s')) as [j|] eqn:J; [|reflexivity].
      pose proof (ExtendFacts.index_of_late [c] _ s' j IK J) as LJ. cbn [length] in LJ.
      destruct (Nat.leb_spec window j); [reflexivity | lia]. }
    assert (H : holds b (b_data b ++ s')).
    { split; [exact L|]. exists s'. split; [reflexivity|]. now rewrite E. }
    destruct (fill_holds b _ H E W) as (b' & d & F & H' & Hd & P & _). rewrite F. cbn [bind].
    destruct (b_err b') eqn:E'.
    + (* the last round *)
      destruct rounds as [|rounds]; [lia|].
      assert (Hk' : length (b_data b) <= length (b_data b')) by (rewrite Hd, app_length; lia).
      assert (Hn' : ~ In c (firstn (length (b_data b)) (b_data b'))).
      { rewrite Hd, firstn_app, Nat.sub_diag, firstn_all. cbn [firstn]. now rewrite app_nil_r. }
      destruct d as [|x d].
      * cbn [slice_loop]. rewrite Hd, app_nil_r in *.
        pose proof (index_skip c (length (b_data b)) (b_data b) Hn' ltac:(lia)) as IK2.
        rewrite IK in IK2.
        destruct (index_of [c] (skipn (length (b_data b)) (b_data b))) as [j|]; [discriminate|].
        rewrite E'. do 3 eexists. split; [reflexivity|].
        destruct H' as (_ & s2 & Es & G'). rewrite E' in G'.
        destruct (goes_on_error _ _ G') as [-> _]. rewrite app_nil_r in Es. rewrite Hd in Es.
        rewrite Es, IK. reflexivity.
      * apply IH; [exact H' | exact Hk' | exact Hn' |].
        rewrite Hd, app_length. cbn [length]. lia.
    + destruct P as [P | P]; [congruence|]. apply IH; [exact H' | | |].
      * rewrite Hd, app_length; lia.
      * rewrite Hd, firstn_app, Nat.sub_diag, firstn_all. cbn [firstn]. now rewrite app_nil_r.
      * rewrite Hd, app_length. destruct d; [congruence|]. cbn [length]. lia.
Qed.

Lemma read_slice_holds c b s : holds b s ->
  exists line failed b', read_slice c b = Some (line, failed, b') /\
    match index_of [c] s with
    | Some i =>
        if Nat.leb window i then failed = true
        else failed = false /\ line = firstn (S i) s /\
             (exists b2, unread_byte b' = (false, b2) /\ holds b2 (skipn i s))
    | None => failed = true
    end.
Proof.
  intros H. unfold read_slice.
  destruct (slice_loop_holds (S (S window)) 0 c b s H ltac:(lia) ltac:(intros [])) as (l & f & b' & E & M).
  { destruct H. lia. }
  exists l, f, b'. split; [exact E|].
  destruct (index_of [c] s) as [i|] eqn:I; [|exact M].
  destruct (Nat.leb window i); [exact M|].
  destruct M as (-> & -> & Hl & (n & Hs) & Ld & H'). split; [reflexivity|]. split; [reflexivity|].
  unfold unread_byte. rewrite Hl, Hs. eexists. split; [reflexivity|].
  destruct H' as (_ & s' & Es & G). split; [cbn [b_data length]; lia|].
  exists s'. cbn [b_data b_err b_from]. split; [|exact G].
  destruct (index_char c s i I) as (A & _ & C).
  assert (skipn i s = c :: skipn (S i) s) as ->; [|rewrite Es; reflexivity].
  clear - A C. revert i A C. induction s as [|x s IH]; intros i A C; [cbn in C; lia|].
  destruct i as [|i]; cbn [firstn app skipn] in *.
  - injection A as ->. reflexivity.
  - injection A as A. cbn in C. apply IH; [exact A | lia].
Qed.

(** *** The decoder's reads *)

Lemma drain_holds : forall s fuel b, holds b s -> length s < fuel -> drain fuel b = Some s.
Proof.
  assert (R : forall b s, holds b s ->
    exists b', read_byte b = Some (match s with [] => None | c :: _ => Some c end, b') /\
      holds b' (match s with [] => [] | _ :: s' => s' end)).
  { assert (N : forall rounds b s, holds b s -> (exists c d, b_data b = c :: d) ->
      exists b', byte_loop (S rounds) b = Some (match s with [] => None | c :: _ => Some c end, b') /\
        holds b' (match s with [] => [] | _ :: s' => s' end)).
    { intros rounds b s (L & s' & -> & G) (c & d & Hd). cbn [byte_loop]. rewrite Hd in *.
      cbn [app]. eexists. split; [reflexivity|].
      split; [cbn [b_data length] in *; lia|]. exists s'. auto. }
    assert (Z : forall rounds b s, holds b s -> b_data b = [] -> b_err b = true ->
      exists b', byte_loop (S rounds) b = Some (match s with [] => None | c :: _ => Some c end, b') /\
        holds b' (match s with [] => [] | _ :: s' => s' end)).
    { intros rounds b s (L & s' & -> & G) Hd He. cbn [byte_loop]. rewrite Hd, He in *.
      destruct (goes_on_error _ _ G) as [-> Ed]. cbn [app]. eexists. split; [reflexivity|].
      split; [cbn; lia|]. exists []. split; [reflexivity|]. left; auto. }
    intros b s H. unfold read_byte.
    destruct (b_data b) as [|c d] eqn:Hd; [|apply (N 2); [exact H | eauto]].
    destruct (b_err b) eqn:He; [apply (Z 2); assumption|].
    assert (W : length (b_data b) < window) by (rewrite Hd; unfold window; cbn [length]; lia).
    destruct (fill_holds b s H He W) as (b' & d & F & H' & Hd' & P & _).
    change (exists b'0, match b_data b with
        | c :: d => Some (Some c, mkBuffered d (S (b_start b)) (b_err b) (Some c) (b_from b))
        | [] => if b_err b then Some (None, mkBuffered [] (b_start b) false (b_last b) (b_from b))
                else b' <- fill b ;; byte_loop 2 b' end
        = Some (match s with [] => None | c :: _ => Some c end, b'0) /\
      holds b'0 (match s with [] => [] | _ :: s' => s' end)).
    rewrite Hd, He, F. cbn [bind]. rewrite Hd in Hd'. cbn [app] in Hd'.
    destruct d as [|c d].
    - destruct P as [P | P]; [|congruence]. apply (Z 1); assumption.
    - apply (N 1); [exact H' | eauto]. }
  induction s as [|c s IH]; intros fuel b H F; (destruct fuel as [|fuel]; [cbn in F; lia|]);
    cbn [drain]; destruct (R b _ H) as (b' & E & H'); rewrite E; cbn [bind fst snd].
  - reflexivity.
  - rewrite (IH fuel b' H' ltac:(cbn in F; lia)). reflexivity.
Qed.

Lemma new_holds r s : delivers r s -> holds (new_reader r) s.
Proof.
  intros D. split; [cbn; lia|]. exists s. split; [reflexivity|]. right. split; [reflexivity | exact D].
Qed.

Lemma sgml_headers_holds b s : holds b s ->
  exists h, sgml_headers_from b = Some h /\
    match h, read_sgml_headers s with
    | None, None => True
    | Some (v, b2), Some (v', s') => v = v' /\ holds b2 s'
    | _, _ => False
    end.
Proof.
  intros H. unfold sgml_headers_from, read_sgml_headers.
  destruct (read_slice_holds "<" b s H) as (l & f & b' & E & M). rewrite E. cbn [bind].
  change (bs "<") with ["<"%char]. destruct (index_of ["<"%char] s) as [i|]; cbn [bind].
  - destruct (Nat.leb window i).
    + subst f. exists None. auto.
    + destruct M as (-> & -> & b2 & U & H2). rewrite U. eexists. split; [reflexivity|].
      destruct (match_entries sgml_entries (firstn (S i) s)) as [values|]; cbn [bind]; [|exact I].
      destruct (check_sgml values) as [v|]; cbn [bind]; [|exact I]. auto.
  - subst f. exists None. auto.
Qed.

Lemma sgml_rest s v s' : read_sgml_headers s = Some (v, s') -> length s' <= length s.
Proof.
  unfold read_sgml_headers. destruct (index_of (bs "<") s) as [i|]; cbn [bind]; [|discriminate].
  destruct (Nat.leb window i); [discriminate|].
  destruct (match_entries _ _) as [values|]; cbn [bind]; [|discriminate].
  destruct (check_sgml values); cbn [bind]; [|discriminate].
  intros E; injection E as <- <-. rewrite skipn_length. lia.
Qed.

Lemma decode_from_delivers e r s fuel : delivers r s -> length s < fuel ->
  decode_from fuel e r = Some (decode_response e s).
Proof.
  intros D F. unfold decode_from, decode_response, read_document.
  destruct (peek_holds _ s (new_holds r s D)) as (b & P & H). rewrite P. cbn [bind fst snd].
  change (guess_peeked (firstn window s)) with (guess_xml s).
  destruct (guess_xml s).
  - rewrite (drain_holds s fuel b H F). cbn [bind].
    destruct (read_xml_headers (lex true s)) as [h|]; cbn [bind]; [|reflexivity].
    destruct (read_ofx true [] (snd h)); reflexivity.
  - destruct (sgml_headers_holds b s H) as (h & E & M). rewrite E. cbn [bind].
    destruct (read_sgml_headers s) as [[v' s']|] eqn:R; destruct h as [[v b2]|]; try contradiction.
    + destruct M as [-> H2]. rewrite (drain_holds s' fuel b2 H2).
      * cbn [bind fst snd]. destruct (read_ofx false ofx_leaf_elements (lex false s')); reflexivity.
      * pose proof (sgml_rest _ _ _ R). lia.
    + reflexivity.
Qed.

Lemma parse_from_delivers e r s fuel : delivers r s -> length s < fuel ->
  parse_from fuel e r = Some (parse_response e s).
Proof.
  intros D F. unfold parse_from, parse_response. rewrite (decode_from_delivers e r s fuel D F).
  cbn [bind]. now destruct (decode_response e s).
Qed.

(** *** The readers of SpecReader *)

Lemma exhausted_ended : ended exhausted.
Proof. cofix C. constructor. intros room b failed r' E. cbn in E. injection E as <- <- <-. auto. Qed.

Lemma whole_delivers : forall s, delivers (whole s) s.
Proof.
  cofix C. intros s. constructor. intros room b failed r' R E. destruct s as [|c s]; cbn [read whole] in E.
  - injection E as <- <- <-. split; [clear C; cbn; lia|]. exists []. split; [reflexivity|].
    left. split; [reflexivity | apply exhausted_ended].
  - injection E as <- <- <-. split; [clear C; rewrite firstn_length; lia|].
    exists (skipn room (c :: s)). split; [symmetry; apply firstn_skipn|].
    right. split; [reflexivity|]. left. split; [destruct room; [clear C; lia | discriminate] | apply C].
Qed.

Lemma eager_delivers : forall s, delivers (eager s) s.
Proof.
  cofix C. intros s. constructor. intros room b failed r' R E. cbn [read eager] in E.
  destruct (skipn room s) as [|c s'] eqn:K.
  - injection E as <- <- <-.
    split. { clear C. pose proof (skipn_length room s) as L. rewrite K in L. cbn in L. lia. }
    exists []. split; [now rewrite app_nil_r|]. left. split; [reflexivity | apply exhausted_ended].
  - injection E as <- <- <-. split; [clear C; rewrite firstn_length; lia|].
    exists (c :: s'). split; [rewrite <- K; symmetry; apply firstn_skipn|].
    right. split; [reflexivity|]. left. split; [|apply C].
    destruct room; [clear C; lia|]. destruct s; [discriminate K | discriminate].
Qed.

Lemma hesitant_delivers : forall s, delivers (hesitant true s) s.
Proof.
  cofix C. intros s. constructor. intros room b failed r' R E. cbn [read hesitant] in E.
  injection E as <- <- <-. split; [clear C; cbn; lia|]. exists s. split; [reflexivity|].
  right. split; [reflexivity|]. right. split; [reflexivity|]. exists 98. split; [reflexivity|].
  constructor. clear room R. intros room b failed r' R E. destruct s as [|c s]; cbn [read hesitant] in E.
  - injection E as <- <- <-. split; [clear C; cbn; lia|]. exists []. split; [reflexivity|].
    left. split; [reflexivity | apply exhausted_ended].
  - injection E as <- <- <-. split; [clear C; cbn; lia|]. exists s. split; [reflexivity|].
    right. split; [reflexivity|]. left. split; [discriminate | apply C].
Qed.
