(** Whatever spells a tree is read as this tree, up to white space. *)
From Coq Require Import Lia ZifyBool ZifyNat ZifyN Bool List.
From Verif Require Import GoStr GoStrFacts SpecStr Utf8 Codec CodecFacts CodecSim Xml SpecXml XmlFacts.

Scheme spells_min := Minimality for spells Sort Prop
  with spells_all_min := Minimality for spells_all Sort Prop.
Combined Scheme spells_mutind from spells_min, spells_all_min.

Lemma same_trees_app a a' b b' : same_trees a a' -> same_trees b b' -> same_trees (a ++ b) (a' ++ b').
Proof. induction 1; intros Hb; cbn [app]; [auto | apply same_space; auto | apply same_more; auto]. Qed.

(** An element that is not closed by the next token. *)
Definition ordinary (st : bool) (L : list str) (nm : str) : Prop := negb st && fold_member nm L = false.

Definition run st L fuel s f := read_element st L (lex_fuel fuel st s) f.

Lemma feed_start st L sp p pk fr a b : ordinary st L p ->
  feed (length ((sp, p, pk) :: fr)) st L (TStart a b) ((sp, p, pk) :: fr) = Going ((a, b, []) :: (sp, p, pk) :: fr).
Proof. intros H. cbn [length feed]. unfold ordinary in H. rewrite H. reflexivity. Qed.

Lemma feed_char st L sp p pk fr s :
  feed (length ((sp, p, pk) :: fr)) st L (TChar s) ((sp, p, pk) :: fr) = Going ((sp, p, Text s :: pk) :: fr).
Proof. reflexivity. Qed.

Lemma feed_end st L p pk fr :
  feed (length (([], p, pk) :: fr)) st L (TEnd [] p) (([], p, pk) :: fr) = close (([], p, pk) :: fr).
Proof. cbn [length feed]. rewrite str_eqb_refl. reflexivity. Qed.

Lemma feed_leaf L lsp leaf lk sp p pk fr t : fold_member leaf L = true -> leaf <> p ->
  (exists a b, t = TStart a b) \/ t = TEnd [] p ->
  feed (length ((lsp, leaf, lk) :: (sp, p, pk) :: fr)) false L t ((lsp, leaf, lk) :: (sp, p, pk) :: fr) =
  feed (length ((sp, p, Elem leaf (rev lk) :: pk) :: fr)) false L t ((sp, p, Elem leaf (rev lk) :: pk) :: fr).
Proof.
  intros Hl Hne Ht. cbn [length]. destruct Ht as [(a & b & ->)| ->].
  - cbn [feed]. rewrite Hl. reflexivity.
  - change (feed (S (S (length fr))) false L (TEnd [] p) ((lsp, leaf, lk) :: (sp, p, pk) :: fr)) with
      (if str_eqb leaf p then if str_eqb lsp [] then close ((lsp, leaf, lk) :: (sp, p, pk) :: fr) else Fail
       else feed (S (length fr)) false L (TEnd [] p) ((sp, p, Elem leaf (rev lk) :: pk) :: fr)).
    apply str_eqb_neq in Hne. rewrite Hne. reflexivity.
Qed.

(** A tag that is cut off. *)
Definition dead_end (s : str) : Prop :=
  (exists r, s = "<"%char :: r) /\ forall fuel st, lex_fuel fuel st s = [].

(** What may follow an element inside [p]: a start tag or the end tag of [p], or
    a tag that is cut off. *)
Definition next_ok (p s : str) : Prop :=
  (exists nm r, plain_name nm /\ s = start_tag nm ++ r) \/ (exists r, plain_name p /\ s = end_tag p ++ r) \/
  dead_end s.

Lemma next_lt p s : next_ok p s -> exists r, s = "<"%char :: r.
Proof.
  intros [(nm & r & _ & ->)|[(r & _ & ->)|[H _]]]; [rewrite start_tag_eq | rewrite end_tag_eq |]; eauto.
Qed.

Lemma next_lex st fuel p s : next_ok p s -> length s <= fuel -> lex_fuel fuel st s = [] \/
  exists t ts, lex_fuel fuel st s = t :: ts /\ ((exists a b, t = TStart a b) \/ t = TEnd [] p).
Proof.
  intros Hn Hf. destruct (next_lt p s Hn) as [r0 E0].
  destruct fuel as [|fuel]; [subst; cbn in Hf; lia|]. destruct Hn as [(nm & r & Hnm & ->)|[(r & Hp & ->)|[_ H]]]; [right|right|left].
  - rewrite lex_start by auto. eexists _, _. split; [reflexivity|]. left. eexists _, _. reflexivity.
  - rewrite lex_end by auto. eexists _, _. split; [reflexivity|]. right. reflexivity.
  - apply H.
Qed.

Lemma run_ws st L w s sp p pk fr fuel : xml_ws w -> (exists r, s = "<"%char :: r) ->
  length (w ++ s) <= fuel ->
  exists fuel' ks, length s <= fuel' /\ same_trees [] (rev ks) /\
    run st L fuel (w ++ s) ((sp, p, pk) :: fr) = run st L fuel' s ((sp, p, ks ++ pk) :: fr).
Proof.
  intros Hw [r ->] Hf. destruct w as [|c w].
  - exists fuel, []. split; auto. split; [constructor | reflexivity].
  - destruct fuel as [|fuel]; [cbn in Hf; lia|].
    destruct (lex_text fuel st [] [] (c :: w) r written_nil xml_string_nil Hw ltac:(discriminate)) as (w' & Hw' & _ & E).
    cbn [app] in E. exists fuel, [Text w']. split; [cbn in Hf |- *; rewrite app_length in Hf; cbn in Hf; lia|].
    split; [apply same_space; [auto | constructor]|].
    unfold run. cbn [app]. rewrite E. cbn [read_element]. rewrite feed_char. reflexivity.
Qed.

Lemma run_text st L raw t w s sp p fr fuel : written raw t -> xml_string t -> xml_ws w ->
  (exists r, s = "<"%char :: r) -> length (raw ++ w ++ s) <= fuel ->
  exists fuel' w', length s <= fuel' /\ xml_ws w' /\ (w = [] -> w' = []) /\
    run st L fuel (raw ++ w ++ s) ((sp, p, []) :: fr) = run st L fuel' s ((sp, p, text_kids (t ++ w')) :: fr).
Proof.
  intros Hr Ht Hw [r ->] Hf. destruct (raw ++ w) as [|c x] eqn:E.
  - apply app_eq_nil in E as [-> ->]. assert (t = []) as -> by (apply written_nil_iff in Hr; tauto).
    exists fuel, []. split; auto.
  - destruct fuel as [|fuel]; [rewrite !app_length in Hf; cbn in Hf; lia|].
    destruct (lex_text fuel st raw t w r Hr Ht Hw ltac:(rewrite E; discriminate)) as (w' & Hw' & Hn & Hl).
    exists fuel, w'. split.
    { rewrite app_assoc, E, app_length in Hf. cbn [length] in *. lia. }
    split; auto. split; [apply Hn|]. unfold run. rewrite Hl. cbn [read_element]. rewrite feed_char.
    destruct (t ++ w') eqn:Etw; [|reflexivity]. exfalso. apply app_eq_nil in Etw as [-> ->].
    destruct Hn as [_ Hn]. rewrite Hn in E by auto. apply written_nil_iff in Hr. rewrite (proj2 Hr) in E by auto. discriminate.
Qed.

Lemma run_start st L nm s sp p pk fr fuel : plain_name nm -> ordinary st L p ->
  length (start_tag nm ++ s) <= fuel ->
  exists fuel', length s <= fuel' /\
    run st L fuel (start_tag nm ++ s) ((sp, p, pk) :: fr) = run st L fuel' s (([], nm, []) :: (sp, p, pk) :: fr).
Proof.
  intros Hn Ho Hf. rewrite app_length in Hf. destruct fuel as [|fuel]; [cbn in Hf; lia|].
  exists fuel. split; [cbn in Hf; lia|]. unfold run. rewrite lex_start by auto. cbn [read_element].
  rewrite feed_start by auto. reflexivity.
Qed.

Lemma run_end st L nm s kids sp p pk fr fuel : plain_name nm ->
  length (end_tag nm ++ s) <= fuel ->
  exists fuel', length s <= fuel' /\
    run st L fuel (end_tag nm ++ s) (([], nm, kids) :: (sp, p, pk) :: fr) =
    run st L fuel' s ((sp, p, Elem nm (rev kids) :: pk) :: fr).
Proof.
  intros Hn Hf. rewrite app_length in Hf. destruct fuel as [|fuel]; [cbn in Hf; lia|].
  exists fuel. split; [cbn in Hf; lia|]. unfold run. rewrite lex_end by auto. cbn [read_element].
  rewrite feed_end. reflexivity.
Qed.

(** ** Elements *)

Definition reads_one st L n b := forall sp p pk fr w0 w1 s fuel,
  ordinary st L p -> xml_ws w0 -> xml_ws w1 -> next_ok p s -> length (w0 ++ b ++ w1 ++ s) <= fuel ->
  exists fuel' w' ks, xml_ws w' /\ length (w' ++ s) <= fuel' /\ same_trees [n] (rev ks) /\
    run st L fuel (w0 ++ b ++ w1 ++ s) ((sp, p, pk) :: fr) = run st L fuel' (w' ++ s) ((sp, p, ks ++ pk) :: fr).

Definition reads_all st L kids b := forall sp p pk fr w0 s fuel,
  ordinary st L p -> xml_ws w0 -> next_ok p s -> length (w0 ++ b ++ s) <= fuel ->
  exists fuel' w' ks, xml_ws w' /\ length (w' ++ s) <= fuel' /\ same_trees kids (rev ks) /\
    run st L fuel (w0 ++ b ++ s) ((sp, p, pk) :: fr) = run st L fuel' (w' ++ s) ((sp, p, ks ++ pk) :: fr).

Lemma spells_starts omit nest n b : spells omit nest n b ->
  exists nm r, plain_name nm /\ b = start_tag nm ++ r.
Proof. intros []; eauto. Qed.

Lemma spells_all_next omit nest kids b p s : spells_all omit nest kids b -> next_ok p s -> next_ok p (b ++ s).
Proof.
  intros [|n b0 w kids' b1 H _ _] Hs; [exact Hs|].
  destruct (spells_starts _ _ _ _ H) as (nm & r & Hn & ->). left. exists nm, (r ++ w ++ b1 ++ s).
  split; auto. rewrite <- !app_assoc. reflexivity.
Qed.

Lemma rev_cons_same ks0 n n' : same_trees [] (rev ks0) -> same_tree n n' -> same_trees [n] (rev (n' :: ks0)).
Proof.
  intros H0 Hn. cbn [rev]. change [n] with ([] ++ [n]). apply same_trees_app; auto.
  apply same_more; [auto | constructor].
Qed.

Lemma spells_read st L (omit nest : str -> Prop) :
  (forall nm, omit nm -> st = false /\ fold_member nm L = true) ->
  (forall nm, nest nm -> ordinary st L nm) ->
  (forall n b, spells omit nest n b -> reads_one st L n b) /\
  (forall kids b, spells_all omit nest kids b -> reads_all st L kids b).
Proof.
  intros Homit Hnest. apply (spells_mutind omit nest (reads_one st L) (reads_all st L)).
  - (* closed text *)
    intros nm t raw Hn Ht Hr sp p pk fr w0 w1 s fuel Ho Hw0 Hw1 Hs Hf.
    destruct (next_lt p s Hs) as [rs Es].
    rewrite <- !app_assoc in *.
    destruct (run_ws st L w0 (start_tag nm ++ raw ++ end_tag nm ++ w1 ++ s) sp p pk fr fuel Hw0) as (f1 & ks0 & Hf1 & Hk & ->);
      [rewrite start_tag_eq; eauto | auto |].
    destruct (run_start st L nm (raw ++ end_tag nm ++ w1 ++ s) sp p (ks0 ++ pk) fr f1 Hn Ho Hf1) as (f2 & Hf2 & ->).
    destruct (run_text st L raw t [] (end_tag nm ++ w1 ++ s) [] nm ((sp, p, ks0 ++ pk) :: fr) f2 Hr Ht) as (f3 & w' & Hf3 & _ & Hw' & E);
      [constructor | rewrite end_tag_eq; eauto | auto |].
    rewrite (Hw' eq_refl), app_nil_r in E. cbn [app] in E.
    destruct (run_end st L nm (w1 ++ s) (text_kids t) sp p (ks0 ++ pk) fr f3 Hn Hf3) as (f4 & Hf4 & E4).
    exists f4, w1, (Elem nm (rev (text_kids t)) :: ks0). split; auto. split; auto.
    split; [|etransitivity; [exact E | exact E4]].
    apply rev_cons_same; auto. replace (rev (text_kids t)) with (text_kids (t ++ [])) by (rewrite app_nil_r; destruct t; reflexivity).
    apply same_text. constructor.
  - (* open text *)
    intros nm t raw Hn Ht Hr Hom sp p pk fr w0 w1 s fuel Ho Hw0 Hw1 Hs Hf.
    destruct (next_lt p s Hs) as [rs Es].
    destruct (Homit nm Hom) as [-> HL].
    rewrite <- !app_assoc in *.
    destruct (run_ws false L w0 (start_tag nm ++ raw ++ w1 ++ s) sp p pk fr fuel Hw0) as (f1 & ks0 & Hf1 & Hk & ->);
      [rewrite start_tag_eq; eauto | auto |].
    destruct (run_start false L nm (raw ++ w1 ++ s) sp p (ks0 ++ pk) fr f1 Hn Ho Hf1) as (f2 & Hf2 & ->).
    destruct (run_text false L raw t w1 s [] nm ((sp, p, ks0 ++ pk) :: fr) f2 Hr Ht Hw1) as (f3 & w' & Hf3 & Hw' & _ & E3);
      [eauto | auto |].
    exists f3, [], (Elem nm (rev (text_kids (t ++ w'))) :: ks0).
    split; [constructor|]. split; auto. split.
    + apply rev_cons_same; auto. replace (rev (text_kids (t ++ w'))) with (text_kids (t ++ w')) by (destruct (t ++ w'); reflexivity).
      apply same_text; auto.
    + etransitivity; [exact E3|]. cbn [app]. unfold run. destruct (next_lex false f3 p s Hs Hf3) as [-> | (tk & ts & -> & Htk)]; [reflexivity|].
      cbn [read_element]. rewrite feed_leaf; auto.
      intros <-. unfold ordinary in Ho. rewrite HL in Ho. discriminate.
  - (* elements *)
    intros nm kids w b Hn Hne Hw Hb IH sp p pk fr w0 w1 s fuel Ho Hw0 Hw1 Hs Hf.
    rewrite <- !app_assoc in *.
    destruct (run_ws st L w0 (start_tag nm ++ w ++ b ++ end_tag nm ++ w1 ++ s) sp p pk fr fuel Hw0) as (f1 & ks0 & Hf1 & Hk & ->);
      [rewrite start_tag_eq; eauto | auto |].
    destruct (run_start st L nm (w ++ b ++ end_tag nm ++ w1 ++ s) sp p (ks0 ++ pk) fr f1 Hn Ho Hf1) as (f2 & Hf2 & ->).
    destruct (IH [] nm [] ((sp, p, ks0 ++ pk) :: fr) w (end_tag nm ++ w1 ++ s) f2) as (f3 & w' & ks & Hw' & Hf3 & Hks & E3);
      [apply Hnest; auto | auto | right; left; eauto | auto |].
    destruct (run_ws st L w' (end_tag nm ++ w1 ++ s) [] nm (ks ++ []) ((sp, p, ks0 ++ pk) :: fr) f3 Hw') as (f4 & ks1 & Hf4 & Hk1 & E4);
      [rewrite end_tag_eq; eauto | auto |].
    destruct (run_end st L nm (w1 ++ s) (ks1 ++ ks ++ []) sp p (ks0 ++ pk) fr f4 Hn Hf4) as (f5 & Hf5 & E5).
    exists f5, w1, (Elem nm (rev (ks1 ++ ks ++ [])) :: ks0). split; auto. split; auto.
    split; [|etransitivity; [exact E3 | etransitivity; [exact E4 | exact E5]]].
    apply rev_cons_same; auto. apply same_elems. rewrite app_nil_r, rev_app_distr.
    rewrite <- (app_nil_r kids). apply same_trees_app; auto.
  - (* no more *)
    intros sp p pk fr w0 s fuel Ho Hw0 Hs Hf. exists fuel, w0, []. split; auto. split; auto. split; [constructor | reflexivity].
  - (* one more *)
    intros n b w kids b' Hnb IHn Hw Hk IHk sp p pk fr w0 s fuel Ho Hw0 Hs Hf.
    rewrite <- !app_assoc in *.
    destruct (IHn sp p pk fr w0 w (b' ++ s) fuel Ho Hw0 Hw) as (f1 & w' & ks & Hw' & Hf1 & Hks & ->);
      [eapply spells_all_next; eauto | auto |].
    destruct (IHk sp p (ks ++ pk) fr w' s f1 Ho Hw' Hs Hf1) as (f2 & w2 & ks2 & Hw2 & Hf2 & Hks2 & ->).
    exists f2, w2, (ks2 ++ ks). split; auto. split; auto. split.
    + rewrite rev_app_distr. change (n :: kids) with ([n] ++ kids). apply same_trees_app; auto.
    + rewrite app_assoc. reflexivity.
Qed.

(** A whole element, as the outermost one. *)
Lemma spells_root st L (omit nest : str -> Prop) nm kids b rest :
  (forall nm, omit nm -> st = false /\ fold_member nm L = true) ->
  (forall nm, nest nm -> ordinary st L nm) ->
  kids <> [] -> Forall (fun k => is_elem k = true) kids ->
  spells omit nest (Elem nm kids) b ->
  exists ts n', lex st (b ++ rest) = TStart [] nm :: ts /\
    read_element st L ts [([], nm, [])] = Some n' /\ same_tree (Elem nm kids) n'.
Proof.
  intros Homit Hnest Hne He Hb.
  assert (Ht : forall t, text_kids t <> kids).
  { intros [|c t] E; [apply Hne; rewrite <- E; reflexivity|]. subst kids. inversion He; discriminate. }
  inversion Hb as [nm' t raw Hn Hx Hr E|nm' t raw Hn Hx Hr Ho E|nm' kids' w b' Hn Hnn Hw Hk]; subst.
  - exfalso. apply (Ht t). reflexivity.
  - exfalso. apply (Ht t). reflexivity.
  - destruct (spells_read st L omit nest Homit Hnest) as [_ Hall].
    rewrite <- !app_assoc. unfold lex.
    destruct (length (start_tag nm ++ w ++ b' ++ end_tag nm ++ rest)) as [|fuel] eqn:Ef;
      [rewrite app_length in Ef; cbn in Ef; lia|].
    rewrite lex_start by auto.
    assert (Hf : length (w ++ b' ++ end_tag nm ++ rest) <= fuel).
    { rewrite app_length in Ef. cbn [start_tag bs app list_ascii_of_string length] in Ef. lia. }
    destruct (Hall kids b' Hk [] nm [] [] w (end_tag nm ++ rest) fuel) as (f1 & w' & ks & Hw' & Hf1 & Hks & E);
      [apply Hnest; auto | auto | right; left; eauto | auto |].
    destruct (run_ws st L w' (end_tag nm ++ rest) [] nm (ks ++ []) [] f1 Hw') as (f2 & ks1 & Hf2 & Hk1 & E2);
      [rewrite end_tag_eq; eauto | auto |].
    exists (lex_fuel fuel st (w ++ b' ++ end_tag nm ++ rest)), (Elem nm (rev (ks1 ++ ks ++ []))).
    split; auto. split.
    + unfold run in E, E2. etransitivity; [exact E|]. etransitivity; [exact E2|]. destruct f2 as [|f2]; [rewrite app_length in Hf2; cbn in Hf2; lia|].
      rewrite lex_end by auto. cbn [read_element]. rewrite feed_end. reflexivity.
    + apply same_elems. rewrite app_nil_r, rev_app_distr. rewrite <- (app_nil_r kids). apply same_trees_app; auto.
Qed.

(** An element whose end tag lacks its last byte. *)
Lemma cut_dead nm : plain_name nm -> dead_end (bs "</" ++ nm).
Proof.
  intros Hn. split; [eexists; reflexivity|]. intros fuel st. destruct fuel as [|fuel]; [reflexivity|].
  assert (Er : read_tag st ("/"%char :: nm) = read_end_tag nm) by reflexivity.
  cbn [bs list_ascii_of_string app lex_fuel]. change (Ascii.eqb "<" "<") with true. cbn iota. rewrite Er.
  unfold read_end_tag, read_name.
  assert (E : span name_or_high nm = (nm, [])).
  { apply plain_name_spec in Hn as (_ & H & _). revert H. clear. induction nm as [|c l IH]; [reflexivity|].
    cbn [span forallb]. intros H. apply andb_true_iff in H as [-> H]. rewrite IH by exact H. reflexivity. }
  rewrite E. cbn [null negb]. rewrite andb_false_r. reflexivity.
Qed.

Lemma spells_cut st L (omit nest : str -> Prop) nm kids b :
  (forall nm, omit nm -> st = false /\ fold_member nm L = true) ->
  (forall nm, nest nm -> ordinary st L nm) ->
  kids <> [] -> Forall (fun k => is_elem k = true) kids ->
  spells omit nest (Elem nm kids) (b ++ bs ">") ->
  exists ts, lex st b = TStart [] nm :: ts /\ read_element st L ts [([], nm, [])] = None.
Proof.
  intros Homit Hnest Hne He Hb.
  assert (Ht : forall t, text_kids t <> kids).
  { intros [|c t] E; [apply Hne; rewrite <- E; reflexivity|]. subst kids. inversion He; discriminate. }
  inversion Hb as [nm' t raw Hn Hx Hr E|nm' t raw Hn Hx Hr Ho E|nm' kids' w b' Hn Hnn Hw Hk E1 E2]; subst.
  - exfalso. apply (Ht t). reflexivity.
  - exfalso. apply (Ht t). reflexivity.
  - assert (Eb : b = start_tag nm ++ w ++ b' ++ bs "</" ++ nm).
    { apply (app_inj_tail b _ ">"%char ">"%char). etransitivity; [symmetry; exact E2|].
      unfold start_tag, end_tag. rewrite <- !app_assoc. reflexivity. }
    subst b. destruct (spells_read st L omit nest Homit Hnest) as [_ Hall]. unfold lex.
    destruct (length (start_tag nm ++ w ++ b' ++ bs "</" ++ nm)) as [|fuel] eqn:Ef;
      [rewrite app_length in Ef; cbn in Ef; lia|].
    rewrite lex_start by auto.
    assert (Hf : length (w ++ b' ++ bs "</" ++ nm) <= fuel).
    { rewrite app_length in Ef. cbn [start_tag bs app list_ascii_of_string length] in Ef. cbn in Ef |- *. lia. }
    pose proof (cut_dead nm Hn) as Hd.
    destruct (Hall kids b' Hk [] nm [] [] w (bs "</" ++ nm) fuel) as (f1 & w' & ks & Hw' & Hf1 & Hks & E);
      [apply Hnest; auto | auto | right; right; exact Hd | auto |].
    destruct (run_ws st L w' (bs "</" ++ nm) [] nm (ks ++ []) [] f1 Hw') as (f2 & ks1 & Hf2 & Hk1 & E3);
      [apply Hd | auto |].
    eexists. split; [reflexivity|].
    unfold run in E, E3. etransitivity; [exact E|]. etransitivity; [exact E3|].
    rewrite (proj2 Hd). reflexivity.
Qed.

(** ** Same trees decode the same *)

Lemma xml_ws_run w : xml_ws w -> ws_run w.
Proof.
  induction 1 as [|c w Hc _ IH]; [constructor|]. change (c :: w) with ([c] ++ w). apply ws_cons; auto.
  exists (code c). split.
  - cbn. destruct Hc as [->|[->|[->| ->]]]; tauto.
  - unfold utf8. replace (code c <? 128)%N with true by lia. rewrite chr_code. reflexivity.
Qed.

Lemma xml_ws_blank w : xml_ws w -> blank w = true.
Proof. intros H. unfold blank. rewrite trim_space_nil by (apply xml_ws_run; auto). reflexivity. Qed.

Scheme same_tree_min := Minimality for same_tree Sort Prop
  with same_trees_min := Minimality for same_trees Sort Prop.
Combined Scheme same_mutind from same_tree_min, same_trees_min.

Lemma text_of_app a b : text_of (a ++ b) = text_of a ++ text_of b.
Proof.
  induction a as [|[nm k|s|] a IH]; cbn [app text_of]; auto. rewrite IH, app_assoc. reflexivity.
Qed.

Lemma same_tree_elem n n' : same_tree n n' -> is_elem n = true /\ is_elem n' = true.
Proof. intros []; auto. Qed.

Lemma same_tree_sim :
  (forall n n', same_tree n n' -> sim n n') /\
  (forall k k', same_trees k k' ->
     Forall2 sim (solid k) (solid k') /\ ws_run (text_of k') /\ text_of k = []).
Proof.
  apply (same_mutind sim (fun k k' => Forall2 sim (solid k) (solid k') /\ ws_run (text_of k') /\ text_of k = [])).
  - intros nm s w Hw. apply sim_elem.
    + rewrite !text_of_text_kids. rewrite <- (app_nil_l (s ++ w)).
      symmetry. apply trim_space_around; [constructor | apply xml_ws_run; auto].
    + assert (Hb : blank (s ++ w) = blank s).
      { unfold blank. rewrite <- (app_nil_l (s ++ w)).
        rewrite trim_space_around; [reflexivity | constructor | apply xml_ws_run; auto]. }
      assert (Hs : forall t, solid (text_kids t) = if blank t then [] else [Text t]).
      { intros [|c t]; [reflexivity|]. cbn [text_kids solid filter]. destruct (blank (c :: t)); reflexivity. }
      rewrite !Hs, Hb. destruct (blank s) eqn:E; [constructor|].
      constructor; [|constructor]. apply sim_text; congruence.
  - intros nm kids kids' _ (H1 & H2 & H3). apply sim_elem; auto.
    rewrite H3, (trim_space_nil _ H2). reflexivity.
  - repeat split; constructor.
  - intros w kids kids' Hw _ (H1 & H2 & H3). split; [|split; auto].
    + cbn [solid filter]. rewrite xml_ws_blank by auto. exact H1.
    + cbn [text_of]. apply ws_run_app; auto. apply xml_ws_run; auto.
  - intros n n' kids kids' Hs Hn _ (H1 & H2 & H3).
    destruct (same_tree_elem n n' Hs) as [En En'].
    destruct n as [nm k|?|], n' as [nm' k'|?|]; try discriminate.
    split; [|split; auto]. cbn [solid filter]. constructor; auto.
Qed.

(** ** The printer spells the tree *)

Lemma spells_all_space omit nest kids b w : spells_all omit nest kids b -> kids <> [] -> xml_ws w ->
  spells_all omit nest kids (b ++ w).
Proof.
  induction 1 as [|n b0 w0 kids b1 Hn Hw0 Hk IH]; intros Hne Hw; [contradiction|].
  destruct kids as [|k kids].
  - inversion Hk; subst. replace ((b0 ++ w0 ++ []) ++ w) with (b0 ++ (w0 ++ w) ++ [])
      by (rewrite !app_nil_r, app_assoc; reflexivity).
    apply spells_more; auto. apply Forall_app; auto.
  - rewrite <- !app_assoc. apply spells_more; auto. apply IH; auto. discriminate.
Qed.

Lemma spaces_ws d : xml_ws (spaces d).
Proof.
  unfold spaces. induction d as [|d IH]; [constructor|]. cbn [repeat concat]. apply Forall_app. split; auto.
  repeat constructor.
Qed.

Lemma newline_ws st : xml_ws (newline st).
Proof.
  unfold newline. assert (code cr = 13%N) by reflexivity. assert (code nl = 10%N) by reflexivity.
  destruct (st_cr st); repeat constructor; tauto.
Qed.

Lemma line_start_ws st first d : xml_ws (line_start st first d).
Proof.
  unfold line_start. destruct (st_indent st); [|constructor]. apply Forall_app. split; [|apply spaces_ws].
  destruct first; [constructor | apply newline_ws].
Qed.

Lemma print_text_kids st d s : concat (map (print st false d) (text_kids s)) = escape s.
Proof. destruct s; [reflexivity|]. cbn [text_kids map concat print]. apply app_nil_r. Qed.

Lemma text_kids_no_elem s : existsb is_elem (text_kids s) = false.
Proof. destruct s; reflexivity. Qed.

Lemma document_elem leaf nest n : document leaf nest n -> is_elem n = true.
Proof. intros []; reflexivity. Qed.

Lemma repaired_is_elem n n' : repaired_tree n n' -> is_elem n = true /\ is_elem n' = true.
Proof. intros []; auto. Qed.

Lemma repaired_existsb kids kids' : Forall2 repaired_tree kids kids' -> existsb is_elem kids = existsb is_elem kids'.
Proof.
  induction 1 as [|x y kids kids' H _ IH]; [reflexivity|]. cbn [existsb].
  destruct (repaired_is_elem _ _ H) as [-> ->]. reflexivity.
Qed.

Lemma print_spells st leaf (nest : str -> Prop) :
  (forall nm, nest nm -> member nm (st_unclosed st) = false) ->
  forall n, document leaf nest n -> forall first depth, exists n' w b, repaired_tree n n' /\ xml_ws w /\
    (w = line_start st first depth /\ exists b', b = bs "<" ++ b') /\
    print st first depth n = w ++ b /\ spells (fun nm => member nm (st_unclosed st) = true) nest n' b.
Proof.
  intros Hnest. induction n as [nm kids IH|s|] using node_ind'; intros Hd first depth;
    [|apply document_elem in Hd; discriminate | apply document_elem in Hd; discriminate].
  assert (Hgoal : exists n', repaired_tree (Elem nm kids) n' /\
     spells (fun nm => member nm (st_unclosed st) = true) nest n'
       (bs "<" ++ nm ++ bs ">" ++ concat (map (print st false (S depth)) kids) ++
          (if member nm (st_unclosed st) then []
           else (if existsb is_elem kids then line_start st false depth else []) ++
                bs "</" ++ nm ++ bs ">"))).
  2: { destruct Hgoal as (n' & Hn' & Hs). exists n', (line_start st first depth). eexists.
       split; [exact Hn'|]. split; [apply line_start_ws|]. split; [split; [reflexivity|]; eexists; reflexivity|].
       split; [reflexivity | exact Hs]. }
  inversion Hd as [nm' s Hn Hx|nm' kids' Hn Hne Hk]; subst.
  - destruct (escape_repaired s) as (m & Hm & Hr). pose proof (repaired_xml _ _ Hr) as Hxm.
    exists (Elem nm (text_kids m)). split; [apply repaired_leaf; exact Hr|].
    rewrite print_text_kids, text_kids_no_elem.
    change (bs "<" ++ nm ++ bs ">" ++ escape s ++ (if member nm (st_unclosed st) then [] else [] ++ bs "</" ++ nm ++ bs ">"))
      with (bs "<" ++ nm ++ bs ">" ++ escape s ++ (if member nm (st_unclosed st) then [] else end_tag nm)).
    replace (bs "<" ++ nm ++ bs ">" ++ escape s ++ (if member nm (st_unclosed st) then [] else end_tag nm))
      with (start_tag nm ++ escape s ++ (if member nm (st_unclosed st) then [] else end_tag nm))
      by (unfold start_tag; rewrite <- !app_assoc; reflexivity).
    destruct (member nm (st_unclosed st)) eqn:Em.
    + rewrite app_nil_r. apply spells_open; auto.
    + apply spells_text; auto.
  - rewrite (Hnest nm Hne).
    assert (Hall : exists kids' w b, Forall2 repaired_tree kids kids' /\ xml_ws w /\
      concat (map (print st false (S depth)) kids) = w ++ b /\
      spells_all (fun nm => member nm (st_unclosed st) = true) nest kids' b).
    { clear Hd Hn Hne Hnest. induction kids as [|k kids IHk].
      - exists [], [], []. split; [constructor|]. split; [constructor|]. split; [reflexivity | constructor].
      - destruct (Forall_inv IH (Forall_inv Hk) false (S depth)) as (k' & w1 & b1 & Hr1 & Hw1 & _ & E1 & Hb1).
        destruct (IHk (Forall_inv_tail IH) (Forall_inv_tail Hk)) as (kids' & w2 & b2 & Hr2 & Hw2 & E2 & Hb2).
        exists (k' :: kids'), w1, (b1 ++ w2 ++ b2). split; [constructor; auto|]. split; auto. split.
        + cbn [map concat]. rewrite E1, E2, <- app_assoc. reflexivity.
        + apply spells_more; auto. }
    destruct Hall as (kids' & w & b & Hr & Hw & -> & Hb).
    exists (Elem nm kids'). split; [apply repaired_elems; exact Hr|].
    assert (Hend : exists b', spells_all (fun nm => member nm (st_unclosed st) = true) nest kids' b' /\
       b ++ (if existsb is_elem kids then line_start st false depth else []) = b').
    { eexists. split; [|reflexivity]. rewrite (repaired_existsb _ _ Hr). destruct Hr as [|k k' kids kids' Hk1 Hr].
      - inversion Hb; subst. constructor.
      - replace (existsb is_elem (k' :: kids')) with true.
        + apply spells_all_space; auto; [discriminate | apply line_start_ws].
        + cbn [existsb]. destruct (repaired_is_elem _ _ Hk1) as [_ ->]. reflexivity. }
    destruct Hend as (b' & Hb' & E').
    replace (bs "<" ++ nm ++ bs ">" ++ (w ++ b) ++
       (if existsb is_elem kids then line_start st false depth else []) ++ bs "</" ++ nm ++ bs ">")
      with (start_tag nm ++ w ++ b' ++ end_tag nm)
      by (rewrite <- E'; unfold start_tag, end_tag; rewrite <- !app_assoc; reflexivity).
    apply spells_elems; auto.
Qed.

(** Text that XML can carry stays as it is. *)
Lemma text_not_repaired s kids' : Forall2 repaired_tree (text_kids s) kids' -> text_kids s = [] /\ kids' = [].
Proof.
  destruct s as [|c s]; intros H; inversion H as [|x y l l' Hx]; subst; [auto|].
  apply repaired_is_elem in Hx as [Hx _]. discriminate.
Qed.

Lemma text_kids_inj s s' : text_kids s = text_kids s' -> s = s'.
Proof. destruct s, s'; cbn; congruence. Qed.

Lemma repaired_inv nm kids n' : repaired_tree (Elem nm kids) n' ->
  (exists s m, kids = text_kids s /\ n' = Elem nm (text_kids m) /\ repaired s m) \/
  (exists kids', n' = Elem nm kids' /\ Forall2 repaired_tree kids kids').
Proof.
  intros H. remember (Elem nm kids) as n eqn:E. destruct H as [nm0 s m H|nm0 k k' H]; injection E as -> <-; eauto 6.
Qed.

Lemma repaired_tree_same nest n : document (fun _ s => xml_string s) nest n -> forall n', repaired_tree n n' -> n' = n.
Proof.
  induction n as [nm kids IH|s|] using node_ind'; intros Hd n' Hr;
    [|apply document_elem in Hd; discriminate | apply document_elem in Hd; discriminate].
  apply repaired_inv in Hr. inversion Hd as [nm' s Hn Hx E|nm' kids0 Hn Hne Hk E]; subst.
  - destruct Hr as [(s0 & m & E & -> & H)|(kids' & -> & H)].
    + apply text_kids_inj in E. subst s0. rewrite (repaired_same s m Hx H). reflexivity.
    + apply text_not_repaired in H as [-> ->]. reflexivity.
  - destruct Hr as [(s0 & m & -> & -> & H)|(kids' & -> & H)].
    + destruct s0 as [|c s0].
      * assert (m = []) by (apply (repaired_empty _ _ H); reflexivity). subst m. reflexivity.
      * apply Forall_inv in Hk. apply document_elem in Hk. discriminate.
    + f_equal. clear - IH Hk H. induction H as [|x y l l' Hx H IHl]; [reflexivity|].
      rewrite (Forall_inv IH (Forall_inv Hk) y Hx), IHl; auto; [exact (Forall_inv_tail IH) | exact (Forall_inv_tail Hk)].
Qed.
