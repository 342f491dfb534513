(** SGML documents: whatever follows the grammar is read. *)
From Coq Require Import QArith Lia Bool List.
From Verif Require Import GoStr GoStrFacts SpecStr GoTime Types Enums EnumTables Records Common Messages Codec Schema Document
  Utf8 Xml LexFacts ExtendFacts SpecXml XmlFacts SpellFacts Headers SpecHeader HeaderFacts WrittenHeaderFacts Leaves Wire
  SpecMarkup SpecSgml MarkupText MarkupTags MarkupDocs SgmlText SgmlTags SgmlDocs.
Close Scope Q_scope.

(** ** What comes first *)

Definition ends_next (s : str) : Prop := exists t ts, lex false s = t :: ts /\ ends_simple t.

Lemma ends_next_begins s : ends_next s -> begins s.
Proof.
  intros (t & ts & E & Ht). destruct s as [|c s]; [discriminate|]. rewrite lex_cons in E. unfold lex_step in E.
  destruct (Ascii.eqb c "<") eqn:Ec; [apply Ascii.eqb_eq in Ec; subst c; eexists; reflexivity|].
  destruct (read_text false None false (c :: s)) as [[u r]|]; [|discriminate]. injection E as <- _. contradiction.
Qed.

Lemma sgml_starts n e b s : sgml n e b -> ends_next (b ++ s).
Proof.
  intros H. inversion H; subst.
  - unfold ends_next. rewrite (bit_complete [TStart prefix local; TEnd prefix local]) by (apply bit_empty; assumption). eexists _, _. split; [reflexivity | exact I].
  - replace ((bs "<" ++ nm ++ a ++ bs ">" ++ b0) ++ s) with ((bs "<" ++ nm ++ a ++ bs ">") ++ b0 ++ s) by (rewrite <- !app_assoc; reflexivity).
    unfold ends_next. rewrite (bit_complete [TStart prefix local]) by (apply bit_start; assumption). eexists _, _. split; [reflexivity | exact I].
  - replace ((bs "<" ++ nm ++ a ++ bs ">" ++ b0 ++ bs "</" ++ nm' ++ w ++ bs ">") ++ s)
      with ((bs "<" ++ nm ++ a ++ bs ">") ++ (b0 ++ bs "</" ++ nm' ++ w ++ bs ">") ++ s) by (rewrite <- !app_assoc; reflexivity).
    unfold ends_next. rewrite (bit_complete [TStart prefix local]) by (apply bit_start; assumption). eexists _, _. split; [reflexivity | exact I].
  - replace ((bs "<" ++ nm ++ a ++ bs ">" ++ b0) ++ s) with ((bs "<" ++ nm ++ a ++ bs ">") ++ b0 ++ s) by (rewrite <- !app_assoc; reflexivity).
    unfold ends_next. rewrite (bit_complete [TStart prefix local]) by (apply bit_start; assumption). eexists _, _. split; [reflexivity | exact I].
Qed.

Lemma sgmls_starts kid kids o b s : sgmls (kid :: kids) o b -> ~ is_text kid -> ends_next (b ++ s).
Proof.
  intros H Hk. inversion H; subst; try (contradiction Hk; exact I).
  - rewrite <- app_assoc. eapply sgml_starts; eassumption.
  - rewrite <- app_assoc. eapply sgml_starts; eassumption.
  - eapply sgml_starts; eassumption.
  - replace ((bs "<!--" ++ c ++ bs "-->" ++ rest) ++ s) with ((bs "<!--" ++ c ++ bs "-->") ++ rest ++ s) by (rewrite <- !app_assoc; reflexivity).
    unfold ends_next. rewrite (bit_complete [TMisc]) by (apply bit_comment; auto). eexists _, _. split; [reflexivity | exact I].
  - replace ((bs "<?" ++ target ++ i ++ bs "?>" ++ rest) ++ s) with ((bs "<?" ++ target ++ i ++ bs "?>") ++ rest ++ s) by (rewrite <- !app_assoc; reflexivity).
    unfold ends_next. rewrite (bit_complete [TProc target (skip_space i)]) by (apply bit_proc; auto). eexists _, _. split; [reflexivity | exact I].
  - replace ((bs "<!" ++ [c] ++ d ++ bs ">" ++ rest) ++ s) with ((bs "<!" ++ [c] ++ d ++ bs ">") ++ rest ++ s) by (rewrite <- !app_assoc; reflexivity).
    unfold ends_next. rewrite (bit_complete [TMisc]) by (apply bit_directive; auto). eexists _, _. split; [reflexivity | exact I].
Qed.

Lemma sgmls_some kids p b : sgmls kids (Some p) b -> b <> [].
Proof.
  intros H. inversion H; subst; try (destruct raw; [congruence | discriminate]); try discriminate;
    match goal with H : sgml _ _ _ |- _ => destruct (sgml_begins _ _ _ H) as [[r ->] _]; discriminate end.
Qed.

(** ** Elements *)

Definition rd (ts : list token) (f : frames) : option node := read_element false L ts f.

Lemma rd_bit ts raw s f : bit ts raw s -> rd (lex false (raw ++ s)) f = rd (ts ++ lex false s) f.
Proof. intros H. rewrite (bit_complete _ _ _ H). reflexivity. Qed.

Lemma rd_start sp lo ts sp0 lo0 k0 f : ~ simple_name lo0 -> rd (TStart sp lo :: ts) ((sp0, lo0, k0) :: f) = rd ts ((sp, lo, []) :: (sp0, lo0, k0) :: f).
Proof. intros H. unfold rd. cbn [read_element length feed]. rewrite (simple_false _ H). reflexivity. Qed.

Lemma rd_misc t ts sp0 lo0 k0 f : t = TMisc \/ (exists a b, t = TProc a b) -> ~ simple_name lo0 ->
  rd (t :: ts) ((sp0, lo0, k0) :: f) = rd ts ((sp0, lo0, Misc :: k0) :: f).
Proof. intros Ht H. unfold rd. cbn [read_element length feed]. rewrite (simple_false _ H). destruct Ht as [->|(a & b & ->)]; reflexivity. Qed.

Lemma rd_own sp lo ts kids sp0 lo0 k0 f : rd (TEnd sp lo :: ts) ((sp, lo, kids) :: (sp0, lo0, k0) :: f) = rd ts ((sp0, lo0, Elem lo (rev kids) :: k0) :: f).
Proof. unfold rd. cbn [read_element length feed]. rewrite !str_eqb_refl. reflexivity. Qed.

Lemma rd_other sp lo sp' lo' ts kids sp0 lo0 k0 f : lo' <> lo ->
  rd (TEnd sp' lo' :: ts) ((sp, lo, kids) :: (sp0, lo0, k0) :: f) = rd (TEnd sp' lo' :: ts) ((sp0, lo0, Elem lo (rev kids) :: k0) :: f).
Proof.
  intros H. assert (E : str_eqb lo lo' = false) by (destruct (str_eqb lo lo') eqn:E; [apply str_eqb_eq in E; congruence | reflexivity]).
  unfold rd. cbn [read_element]. 
  change (length ((sp, lo, kids) :: (sp0, lo0, k0) :: f)) with (S (length ((sp0, lo0, Elem lo (rev kids) :: k0) :: f))).
  cbn [feed close]. rewrite E. reflexivity.
Qed.

Lemma rd_omitted sp lo s kids sp0 lo0 k0 f : simple_name lo -> ends_next s ->
  rd (lex false s) ((sp, lo, kids) :: (sp0, lo0, k0) :: f) = rd (lex false s) ((sp0, lo0, Elem lo (rev kids) :: k0) :: f).
Proof.
  intros H (t & ts & -> & Ht). apply simple_iff in H. unfold rd. cbn [read_element].
  change (length ((sp, lo, kids) :: (sp0, lo0, k0) :: f)) with (S (length ((sp0, lo0, Elem lo (rev kids) :: k0) :: f))).
  cbn [feed close]. rewrite H. destruct t; try contradiction; reflexivity.
Qed.

(** What reading the bytes of an element does. *)
Definition reads_element (n : node) (e : ending) (b : str) : Prop :=
  forall sp lo kids f s, ~ simple_name lo ->
  match e with
  | Ended => rd (lex false (b ++ s)) ((sp, lo, kids) :: f) = rd (lex false s) ((sp, lo, n :: kids) :: f)
  | Omitted => ends_next s -> rd (lex false (b ++ s)) ((sp, lo, kids) :: f) = rd (lex false s) ((sp, lo, n :: kids) :: f)
  | Pending p l => rd (lex false (b ++ s)) ((sp, lo, kids) :: f) = rd (TEnd p l :: lex false s) ((sp, lo, n :: kids) :: f)
  end.

(** What reading the bytes of some content does. *)
Definition reads_content (ns : list node) (o : option (str * str)) (b : str) : Prop :=
  forall sp lo kids f s, (simple_name lo -> Forall is_text ns) ->
  match o with
  | None => begins s -> rd (lex false (b ++ s)) ((sp, lo, kids) :: f) = rd (lex false s) ((sp, lo, rev ns ++ kids) :: f)
  | Some (p, l) => rd (lex false (b ++ s)) ((sp, lo, kids) :: f) = rd (TEnd p l :: lex false s) ((sp, lo, rev ns ++ kids) :: f)
  end.

Lemma not_simple lo n ns : (simple_name lo -> Forall is_text (n :: ns)) -> ~ is_text n -> ~ simple_name lo.
Proof. intros H Hn Hs. specialize (H Hs). inversion H; contradiction. Qed.

(** More content after some, for both ways the content can end. *)
Lemma content_then n ns o b rest sp lo kids f s : reads_content ns o rest -> (simple_name lo -> Forall is_text (n :: ns)) ->
  (o = None -> begins s) ->
  rd (lex false (b ++ rest ++ s)) ((sp, lo, kids) :: f) = rd (lex false (rest ++ s)) ((sp, lo, n :: kids) :: f) ->
  match o with
  | None => begins s -> rd (lex false ((b ++ rest) ++ s)) ((sp, lo, kids) :: f) = rd (lex false s) ((sp, lo, rev (n :: ns) ++ kids) :: f)
  | Some (p, l) => rd (lex false ((b ++ rest) ++ s)) ((sp, lo, kids) :: f) = rd (TEnd p l :: lex false s) ((sp, lo, rev (n :: ns) ++ kids) :: f)
  end.
Proof.
  intros IH Hs Hb E. specialize (IH sp lo (n :: kids) f s).
  assert (Hs' : simple_name lo -> Forall is_text ns) by (intros H; specialize (Hs H); inversion Hs; assumption).
  specialize (IH Hs'). rewrite <- app_assoc. cbn [rev]. rewrite <- (app_assoc (rev ns)). cbn [app]. destruct o as [[p l]|].
  - rewrite E. exact IH.
  - intros H. rewrite E. apply IH, H.
Qed.

(** A start tag, content, and what ends the element. *)
Lemma ended_element n local kids prefix prefix' local' e sp lo k0 f s : n = Elem local kids -> ended_by prefix local prefix' local' e ->
  rd (TEnd prefix' local' :: lex false s) ((prefix, local, rev kids) :: (sp, lo, k0) :: f) =
  match e with
  | Pending p l => rd (TEnd p l :: lex false s) ((sp, lo, n :: k0) :: f)
  | _ => rd (lex false s) ((sp, lo, n :: k0) :: f)
  end.
Proof.
  intros -> [(-> & -> & ->)|(H & ->)].
  - rewrite rd_own, rev_involutive. reflexivity.
  - rewrite rd_other by exact H. rewrite rev_involutive. reflexivity.
Qed.

Lemma reads_all : (forall n e b, sgml n e b -> reads_element n e b) /\ (forall ns o b, sgmls ns o b -> reads_content ns o b).
Proof.
  apply sgml_both.
  - (* empty element *)
    intros nm prefix local a Hn Hq Ha sp lo kids f s Hlo. cbn beta iota.
    rewrite (rd_bit [TStart prefix local; TEnd prefix local]) by (apply bit_empty; assumption).
    cbn [app]. rewrite rd_start by exact Hlo. apply rd_own.
  - (* no end tag *)
    intros nm prefix local a kids b Hn Hq Ha Hs Hk Hc IH sp lo k0 f s Hlo. cbn beta iota. intros He.
    replace ((bs "<" ++ nm ++ a ++ bs ">" ++ b) ++ s) with ((bs "<" ++ nm ++ a ++ bs ">") ++ b ++ s) by (rewrite <- !app_assoc; reflexivity).
    rewrite (rd_bit [TStart prefix local]) by (apply bit_start; assumption). cbn [app]. rewrite rd_start by exact Hlo.
    rewrite (IH prefix local [] ((sp, lo, k0) :: f) s (fun _ => Hk) (ends_next_begins _ He)), app_nil_r.
    rewrite rd_omitted by assumption. rewrite rev_involutive. reflexivity.
  - (* an end tag *)
    intros nm prefix local a kids b nm' prefix' local' w e Hn Hq Ha Hk Hc IH Hn' Hq' Hw He sp lo k0 f s Hlo.
    assert (E : rd (lex false ((bs "<" ++ nm ++ a ++ bs ">" ++ b ++ bs "</" ++ nm' ++ w ++ bs ">") ++ s)) ((sp, lo, k0) :: f) =
      rd (TEnd prefix' local' :: lex false s) ((prefix, local, rev kids) :: (sp, lo, k0) :: f)).
    { replace ((bs "<" ++ nm ++ a ++ bs ">" ++ b ++ bs "</" ++ nm' ++ w ++ bs ">") ++ s)
        with ((bs "<" ++ nm ++ a ++ bs ">") ++ b ++ (bs "</" ++ nm' ++ w ++ bs ">") ++ s) by (rewrite <- !app_assoc; reflexivity).
      rewrite (rd_bit [TStart prefix local]) by (apply bit_start; assumption). cbn [app]. rewrite rd_start by exact Hlo.
      rewrite (IH prefix local [] ((sp, lo, k0) :: f) _ Hk) by (eexists; reflexivity). rewrite app_nil_r.
      rewrite (rd_bit [TEnd prefix' local']) by (apply bit_end; assumption). reflexivity. }
    rewrite E. rewrite (ended_element _ local kids prefix prefix' local' e sp lo k0 f s eq_refl He). destruct e; reflexivity.
  - (* the end tag of another element, inside *)
    intros nm prefix local a kids b prefix' local' e Hn Hq Ha Hs Hc IH He sp lo k0 f s Hlo.
    assert (E : rd (lex false ((bs "<" ++ nm ++ a ++ bs ">" ++ b) ++ s)) ((sp, lo, k0) :: f) =
      rd (TEnd prefix' local' :: lex false s) ((prefix, local, rev kids) :: (sp, lo, k0) :: f)).
    { replace ((bs "<" ++ nm ++ a ++ bs ">" ++ b) ++ s) with ((bs "<" ++ nm ++ a ++ bs ">") ++ b ++ s) by (rewrite <- !app_assoc; reflexivity).
      rewrite (rd_bit [TStart prefix local]) by (apply bit_start; assumption). cbn [app]. rewrite rd_start by exact Hlo.
      pose proof (IH prefix local [] ((sp, lo, k0) :: f) s ltac:(contradiction)) as IH'. cbn beta iota in IH'. rewrite IH', app_nil_r. reflexivity. }
    rewrite E. rewrite (ended_element _ local kids prefix prefix' local' e sp lo k0 f s eq_refl He). destruct e; reflexivity.
  - intros sp lo kids f s _ _. reflexivity.
  - intros n b kids o rest Hn IHn Hk IH sp lo k0 f s Hs.
    assert (Hlo : ~ simple_name lo) by (eapply not_simple; [exact Hs | apply (sgml_begins _ _ _ Hn)]).
    destruct o as [[p l]|].
    + apply (content_then n kids (Some (p, l)) b rest sp lo k0 f s IH Hs); [discriminate|]. apply IHn, Hlo.
    + intros Hb. apply (content_then n kids None b rest sp lo k0 f s IH Hs); auto.
  - intros n b kid kids o rest Hn IHn Hkid Hk IH sp lo k0 f s Hs.
    assert (Hlo : ~ simple_name lo) by (eapply not_simple; [exact Hs | apply (sgml_begins _ _ _ Hn)]).
    destruct o as [[p l]|].
    + apply (content_then n (kid :: kids) (Some (p, l)) b rest sp lo k0 f s IH Hs); [discriminate|].
      apply (IHn sp lo k0 f _ Hlo). eapply sgmls_starts; eauto.
    + intros Hb. apply (content_then n (kid :: kids) None b rest sp lo k0 f s IH Hs); auto.
      apply (IHn sp lo k0 f _ Hlo). eapply sgmls_starts; eauto.
  - intros n b prefix local Hn IHn sp lo k0 f s Hs. cbn [rev app]. apply IHn. eapply not_simple; [exact Hs | apply (sgml_begins _ _ _ Hn)].
  - intros t raw kids o rest Hr Ht Hnext Hk IH sp lo k0 f s Hs.
    assert (E : (o = None -> begins s) -> rd (lex false (raw ++ rest ++ s)) ((sp, lo, k0) :: f) = rd (lex false (rest ++ s)) ((sp, lo, Text t :: k0) :: f)).
    { intros Hb. assert (Hbeg : begins (rest ++ s)).
      { destruct rest as [|c rest]; [|rewrite (Hnext c rest eq_refl); eexists; reflexivity].
        apply Hb. destruct o; [|reflexivity]. contradiction (sgmls_some _ _ _ Hk); reflexivity. }
      destruct Hbeg as [y E]. rewrite E. rewrite (rd_bit [TChar t]) by (apply bit_text; auto). reflexivity. }
    destruct o as [[p l]|].
    + apply (content_then (Text t) kids (Some (p, l)) raw rest sp lo k0 f s IH Hs); [discriminate|]. apply E. discriminate.
    + intros Hb. apply (content_then (Text t) kids None raw rest sp lo k0 f s IH Hs); auto.
  - intros t raw kids o rest Ht Hk IH sp lo k0 f s Hs.
    assert (E : rd (lex false ((bs "<![CDATA[" ++ raw ++ bs "]]>") ++ rest ++ s)) ((sp, lo, k0) :: f) = rd (lex false (rest ++ s)) ((sp, lo, Text t :: k0) :: f)).
    { rewrite (rd_bit [TChar t]) by (apply bit_cdata; auto). reflexivity. }
    replace (bs "<![CDATA[" ++ raw ++ bs "]]>" ++ rest) with ((bs "<![CDATA[" ++ raw ++ bs "]]>") ++ rest) by (rewrite <- !app_assoc; reflexivity).
    destruct o as [[p l]|].
    + apply (content_then (Text t) kids (Some (p, l)) _ rest sp lo k0 f s IH Hs); [discriminate | exact E].
    + intros Hb. apply (content_then (Text t) kids None _ rest sp lo k0 f s IH Hs); auto.
  - intros c kids o rest Hc Hk IH sp lo k0 f s Hs.
    assert (Hlo : ~ simple_name lo) by (eapply not_simple; [exact Hs | intros []]).
    assert (E : rd (lex false ((bs "<!--" ++ c ++ bs "-->") ++ rest ++ s)) ((sp, lo, k0) :: f) = rd (lex false (rest ++ s)) ((sp, lo, Misc :: k0) :: f)).
    { rewrite (rd_bit [TMisc]) by (apply bit_comment; auto). apply rd_misc; auto. }
    replace (bs "<!--" ++ c ++ bs "-->" ++ rest) with ((bs "<!--" ++ c ++ bs "-->") ++ rest) by (rewrite <- !app_assoc; reflexivity).
    destruct o as [[p l]|].
    + apply (content_then Misc kids (Some (p, l)) _ rest sp lo k0 f s IH Hs); [discriminate | exact E].
    + intros Hb. apply (content_then Misc kids None _ rest sp lo k0 f s IH Hs); auto.
  - intros target i kids o rest Hi Hk IH sp lo k0 f s Hs.
    assert (Hlo : ~ simple_name lo) by (eapply not_simple; [exact Hs | intros []]).
    assert (E : rd (lex false ((bs "<?" ++ target ++ i ++ bs "?>") ++ rest ++ s)) ((sp, lo, k0) :: f) = rd (lex false (rest ++ s)) ((sp, lo, Misc :: k0) :: f)).
    { rewrite (rd_bit [TProc target (skip_space i)]) by (apply bit_proc; auto). apply rd_misc; eauto. }
    replace (bs "<?" ++ target ++ i ++ bs "?>" ++ rest) with ((bs "<?" ++ target ++ i ++ bs "?>") ++ rest) by (rewrite <- !app_assoc; reflexivity).
    destruct o as [[p l]|].
    + apply (content_then Misc kids (Some (p, l)) _ rest sp lo k0 f s IH Hs); [discriminate | exact E].
    + intros Hb. apply (content_then Misc kids None _ rest sp lo k0 f s IH Hs); auto.
  - intros c d kids o rest H1 H2 Hd Hk IH sp lo k0 f s Hs.
    assert (Hlo : ~ simple_name lo) by (eapply not_simple; [exact Hs | intros []]).
    assert (E : rd (lex false ((bs "<!" ++ [c] ++ d ++ bs ">") ++ rest ++ s)) ((sp, lo, k0) :: f) = rd (lex false (rest ++ s)) ((sp, lo, Misc :: k0) :: f)).
    { rewrite (rd_bit [TMisc]) by (apply bit_directive; auto). apply rd_misc; auto. }
    replace (bs "<!" ++ [c] ++ d ++ bs ">" ++ rest) with ((bs "<!" ++ [c] ++ d ++ bs ">") ++ rest) by (rewrite <- !app_assoc; reflexivity).
    destruct o as [[p l]|].
    + apply (content_then Misc kids (Some (p, l)) _ rest sp lo k0 f s IH Hs); [discriminate | exact E].
    + intros Hb. apply (content_then Misc kids None _ rest sp lo k0 f s IH Hs); auto.
Qed.

(** The outermost element. *)
Lemma rd_last p l sp lo kids ts e : ended_by sp lo p l e -> rd (TEnd p l :: ts) [(sp, lo, kids)] = Some (Elem lo (rev kids)).
Proof.
  intros [(-> & -> & _)|(H & _)]; unfold rd; cbn [read_element length feed close].
  - rewrite !str_eqb_refl. reflexivity.
  - destruct (str_eqb lo l) eqn:E; [apply str_eqb_eq in E; congruence|]. reflexivity.
Qed.

Lemma rd_root_complete local kids e b s : sgml (Elem local kids) e b -> ~ simple_name local ->
  exists sp ts, lex false (b ++ s) = TStart sp local :: ts /\ rd ts [(sp, local, [])] = Some (Elem local kids).
Proof.
  intros H Hlo. inversion H; subst.
  - exists prefix, (TEnd prefix local :: lex false s). split.
    + apply (bit_complete [TStart prefix local; TEnd prefix local]). apply bit_empty; assumption.
    + unfold rd. cbn [read_element length feed]. rewrite !str_eqb_refl. reflexivity.
  - contradiction.
  - exists prefix, (lex false ((b0 ++ bs "</" ++ nm' ++ w ++ bs ">") ++ s)). split.
    + replace ((bs "<" ++ nm ++ a ++ bs ">" ++ b0 ++ bs "</" ++ nm' ++ w ++ bs ">") ++ s)
        with ((bs "<" ++ nm ++ a ++ bs ">") ++ (b0 ++ bs "</" ++ nm' ++ w ++ bs ">") ++ s) by (rewrite <- !app_assoc; reflexivity).
      apply (bit_complete [TStart prefix local]). apply bit_start; assumption.
    + rewrite <- (app_assoc b0).
      match goal with Hc : sgmls kids None b0 |- _ => rewrite (proj2 reads_all kids None b0 Hc prefix local [] [] ((bs "</" ++ nm' ++ w ++ bs ">") ++ s)) end;
        [|assumption | eexists; reflexivity].
      rewrite (rd_bit [TEnd prefix' local']) by (apply bit_end; assumption). cbn [app]. erewrite rd_last by eassumption.
      rewrite app_nil_r, rev_involutive. reflexivity.
  - exists prefix, (lex false (b0 ++ s)). split.
    + replace ((bs "<" ++ nm ++ a ++ bs ">" ++ b0) ++ s) with ((bs "<" ++ nm ++ a ++ bs ">") ++ b0 ++ s) by (rewrite <- !app_assoc; reflexivity).
      apply (bit_complete [TStart prefix local]). apply bit_start; assumption.
    + match goal with Hc : sgmls kids (Some _) b0 |- _ =>
        pose proof (proj2 reads_all kids _ b0 Hc prefix local [] [] s ltac:(contradiction)) as E end.
      cbn beta iota in E. rewrite E. erewrite rd_last by eassumption. rewrite app_nil_r, rev_involutive. reflexivity.
Qed.

(** ** Blanks *)

Lemma literal_loose raw t : literal true (fun c => c <> "<"%char /\ c <> "&"%char) raw t -> loose raw t.
Proof. induction 1 as [|raw t _ IH|raw t Hn _ IH|c raw t Hc [H1 H2] _ IH|r u raw t _ Hr _ IH]; constructor; auto. Qed.

Lemma loose_literal raw t : loose raw t -> ~ In "&"%char t -> literal true (fun c => c <> "<"%char /\ c <> "&"%char) raw t.
Proof.
  induction 1 as [|raw t _ IH|raw t Hn _ IH|c raw t Hc H1 H2 _ IH|r u raw t Hr _ IH|raw t _ _ IH]; intros Hin.
  - constructor.
  - constructor. apply IH. intros H. apply Hin. right. exact H.
  - constructor; auto. apply IH. intros H. apply Hin. right. exact H.
  - constructor; auto. apply IH. intros H. apply Hin. right. exact H.
  - constructor; auto. apply IH. intros H. apply Hin, in_or_app. auto.
  - exfalso. apply Hin. left. reflexivity.
Qed.

Lemma text_spells_loose t raw : text_spells t raw -> loose_text t raw.
Proof. intros (H1 & H2 & H3). split; [apply literal_loose, H1 | auto]. Qed.

Lemma ws_run_ampersand t : ws_run t -> ~ In "&"%char t.
Proof.
  induction 1 as [|w s Hw _ IH]; [intros []|]. intros Hin. apply in_app_or in Hin as [Hin|Hin]; [|exact (IH Hin)].
  apply ws_char_cases in Hw as [(c & -> & Hc)|[(c & d & -> & Hc)|(c & d & e & -> & Hc)]]; cbn [In] in Hin.
  - destruct Hin as [->|[]]. vm_compute in Hc. discriminate.
  - ws_facts. destruct Hin as [->|[->|[]]]; change (code "&") with 38%N in *; lia.
  - ws_facts. destruct Hin as [->|[->|[->|[]]]]; change (code "&") with 38%N in *; lia.
Qed.

Lemma loose_blank t raw : loose_text t raw -> ws_run t -> text_spells t raw.
Proof. intros (H1 & H2 & H3) Hw. split; [apply loose_literal; [exact H1 | apply ws_run_ampersand, Hw] | auto]. Qed.

Lemma next_loose_sound k : forall s t ts, length s <= k -> next_token (lex false s) = Some (t, ts) -> (forall w, t <> TChar w) ->
  exists g ts0 raw s', s = g ++ raw ++ s' /\ blanks g /\ bit (t :: ts0) raw s' /\ ts = ts0 ++ lex false s'.
Proof.
  induction k as [|k IH]; intros s t ts Hk H Ht.
  { destruct s; [discriminate | cbn in Hk; lia]. }
  destruct (lex false s) as [|t1 ts1] eqn:El; [discriminate|].
  destruct (lex_loose_sound s t1 ts1 El) as [(w & E)|(ts0 & raw & s' & Hp & -> & Et & Hl)].
  { injection E as -> ->. cbn [next_token] in H. destruct (blank w); [discriminate|]. injection H as <- _. contradiction (Ht w). reflexivity. }
  assert (Hother : (forall w, t1 <> TChar w) -> Some (t1, ts1) = Some (t, ts) -> exists g ts0 raw0 s'0, raw ++ s' = g ++ raw0 ++ s'0 /\
    blanks g /\ bit (t :: ts0) raw0 s'0 /\ ts = ts0 ++ lex false s'0).
  { intros Hn [= -> ->]. destruct ts0 as [|t0 ts0]; [inversion Hp|]. injection Et as <- ->.
    exists [], ts0, raw, s'. repeat split; auto. constructor. }
  destruct t1 as [sp lo|sp lo|w|target inst|]; try (apply Hother; [discriminate | exact H]).
  cbn [next_token] in H. destruct (blank w) eqn:Eb; [|injection H as <- _; contradiction (Ht w); reflexivity].
  apply blank_iff in Eb. clear Hother.
  inversion Hp; subst; try discriminate; injection Et as -> Ets.
  - subst ts1. apply (IH _ t ts) in H as (g & ts0 & raw' & s2 & E & Hg & Hp' & ->); [|lia|exact Ht]. rewrite E.
    exists (raw ++ g), ts0, raw', s2. rewrite <- app_assoc. repeat split; auto.
    eapply blanks_text; eauto using loose_blank. intros c r ->. cbn [app] in E. injection E as <- _. reflexivity.
  - subst ts1. apply (IH s' t ts) in H as (g & ts0 & raw' & s2 & -> & Hg & Hp' & ->); [|lia|exact Ht].
    exists (bs "<![CDATA[" ++ raw0 ++ bs "]]>" ++ g), ts0, raw', s2. rewrite <- !app_assoc. repeat split; auto.
    eapply blanks_cdata; eauto.
Qed.

Lemma next_loose_complete g s : blanks g -> begins s -> next_token (lex false (g ++ s)) = next_token (lex false s).
Proof.
  intros H. revert s. induction H as [|t raw rest Hr Ht Hw Hn H IH|t raw rest Ht Hw H IH]; intros s Hs; [reflexivity| |].
  - assert (Hb : begins (rest ++ s)).
    { destruct rest as [|c rest]; [exact Hs | rewrite (Hn c rest eq_refl); eexists; reflexivity]. }
    pose proof (IH s Hs) as IH'. destruct Hb as [y E]. rewrite <- app_assoc. rewrite E in *.
    rewrite (bit_complete [TChar t]) by (apply bit_text; auto using text_spells_loose).
    cbn [app next_token]. apply blank_iff in Hw. rewrite Hw. exact IH'.
  - replace ((bs "<![CDATA[" ++ raw ++ bs "]]>" ++ rest) ++ s) with ((bs "<![CDATA[" ++ raw ++ bs "]]>") ++ rest ++ s)
      by (rewrite <- !app_assoc; reflexivity).
    rewrite (bit_complete [TChar t]) by (apply bit_cdata; auto).
    cbn [app next_token]. apply blank_iff in Hw. rewrite Hw. apply IH, Hs.
Qed.

(** ** Documents *)

Theorem read_sgml_document_iff s v n : looks_like_sgml s -> (read_document s = Some (v, n) <-> exists e, sgml_document v n e s).
Proof.
  intros Hs. apply guess_sgml_iff in Hs. unfold read_document. rewrite Hs. split.
  - destruct (read_sgml_headers s) as [[v' body]|] eqn:Eh; [|discriminate]. cbn [bind fst snd].
    apply read_sgml_iff in Eh as (h & -> & Hh & (body' & ->) & Hl).
    unfold read_ofx. destruct (next_token (lex false ("<"%char :: body'))) as [[t ts]|] eqn:E3; [|discriminate]. cbn [bind fst snd].
    destruct t as [sp nm| | | |]; try discriminate.
    destruct (str_eqb nm (bs "OFX")) eqn:Et; [|discriminate]. apply str_eqb_eq in Et. subst nm.
    apply (next_loose_sound _ _ _ _ (le_n _)) in E3 as (g & ts0 & raw & s3 & E & Hg & Hp & ->); [|discriminate].
    destruct (read_element false ofx_leaf_elements (ts0 ++ lex false s3) [(sp, bs "OFX", [])]) as [n'|] eqn:Er; [|discriminate].
    cbn [bind fst snd]. intros [= -> ->].
    assert (Hb : exists e b s4 kids, raw ++ s3 = b ++ s4 /\ n = Elem (bs "OFX") kids /\ sgml n e b).
    { inversion Hp; subst; cbn [app] in Er.
      - destruct (read_loose_sound (length s3) s3 [(sp, bs "OFX", [])] ((bs "<" ++ nm ++ a ++ bs ">") ++ []) Free n)
          as (e & b' & s4 & -> & Hm); auto; try discriminate.
        + apply unclosed_root; [exists nm, a; auto | constructor | apply loosely_nil].
        + exists e, (((bs "<" ++ nm ++ a ++ bs ">") ++ []) ++ b'), s4. rewrite app_nil_r in *.
          assert (Hroot : exists kids, n = Elem (bs "OFX") kids).
          { apply (read_element_name _ _ _ _ (bs "OFX") _) in Er; [exact Er|]. exists [], sp, []. reflexivity. }
          destruct Hroot as [kids ->]. exists kids. split; [apply app_assoc | auto].
      - cbn [read_element length feed] in Er. rewrite !str_eqb_refl in Er. injection Er as <-.
        exists Ended, (bs "<" ++ nm ++ a ++ bs "/>"), s3, []. repeat split; auto. eapply sgml_empty; eauto. }
    destruct Hb as (e & b & s4 & kids & Eb & En & Hm). rewrite Eb in E. exists e, h, g, b, s4, kids. rewrite E.
    repeat (split; [solve [auto]|]). split; [|auto].
    intros c r ->. cbn [app] in E. injection E as <- _. reflexivity.
  - intros (e & h & g & b & rest & kids & -> & Hh & Hl & Hg & Hnext & -> & Hm).
    assert (Hb : begins (b ++ rest)) by (apply begins_app, (sgml_begins _ _ _ Hm)).
    assert (Hgb : exists y, g ++ b ++ rest = "<"%char :: y).
    { destruct g as [|c g]; [exact Hb | rewrite (Hnext c g eq_refl); eexists; reflexivity]. }
    assert (Eh : read_sgml_headers (h ++ g ++ b ++ rest) = Some (v, g ++ b ++ rest)).
    { apply read_sgml_iff. exists h. auto. }
    rewrite Eh. cbn [bind fst snd].
    destruct (rd_root_complete (bs "OFX") kids e b rest Hm ofx_not_simple) as (sp & ts & El & Er).
    unfold read_ofx. rewrite next_loose_complete by assumption.
    rewrite El. cbn [next_token bind fst snd]. rewrite str_eqb_refl. unfold rd in Er. rewrite Er. reflexivity.
Qed.

(** ** Well-formed XML *)

Lemma tag_attributes_loose a : tag_attributes a -> loose_attributes a.
Proof.
  induction 1 as [w Hw|w nm w1 w2 q t raw rest Hw Hn H1 H2 Hq Ht Hi _ IH]; [apply loose_none, Hw|].
  eapply loose_quoted; eauto using text_spells_loose.
Qed.

Lemma tag_rest_loose a : tag_rest a -> loose_rest a.
Proof. intros [H1 H2]. split; [apply tag_attributes_loose, H1 | exact H2]. Qed.

Lemma markup_sgml :
  (forall n b, markup n b -> simple_hold_text n -> sgml n Ended b) /\
  (forall ns b, markups ns b -> Forall simple_hold_text ns -> sgmls ns None b).
Proof.
  apply markup_both.
  - intros nm prefix local a Hn Hq Ha _. eapply sgml_empty; eauto using tag_rest_loose.
  - intros nm nm' prefix local a w kids b Hn Hq Ha Hk IH Hn' Hq' Hw H. inversion H; subst.
    eapply sgml_tag; eauto using tag_rest_loose. left. auto.
  - intros _. constructor.
  - intros n b ns rest H1 IH1 H2 IH2 H. inversion H; subst. apply sgmls_elem; auto.
  - intros t raw ns rest Hr Ht Hnext _ IH H. inversion H; subst. apply sgmls_text; auto using text_spells_loose.
  - intros t raw ns rest Ht _ IH H. inversion H; subst. apply sgmls_cdata; auto.
  - intros c ns rest Hc _ IH H. inversion H; subst. apply sgmls_comment; auto.
  - intros target i ns rest Hi _ IH H. inversion H; subst. apply sgmls_instruction; auto.
  - intros c d ns rest H1 H2 Hd _ IH H. inversion H; subst. apply sgmls_directive; auto.
Qed.

(** ** The end of the element *)

Lemma pending_end :
  (forall n e b, sgml n e b -> forall p l, e = Pending p l ->
    exists b0 nm w, b = b0 ++ bs "</" ++ nm ++ w ++ bs ">" /\ xml_name nm /\ qualified nm p l /\ xml_ws w) /\
  (forall ns o b, sgmls ns o b -> forall p l, o = Some (p, l) ->
    exists b0 nm w, b = b0 ++ bs "</" ++ nm ++ w ++ bs ">" /\ xml_name nm /\ qualified nm p l /\ xml_ws w).
Proof.
  assert (Hpre : forall a rest p l, (exists b0 nm w, rest = b0 ++ bs "</" ++ nm ++ w ++ bs ">" /\ xml_name nm /\ qualified nm p l /\ xml_ws w) ->
    exists b0 nm w, a ++ rest = b0 ++ bs "</" ++ nm ++ w ++ bs ">" /\ xml_name nm /\ qualified nm p l /\ xml_ws w).
  { intros a rest p l (b0 & nm & w & -> & H). exists (a ++ b0), nm, w. rewrite <- app_assoc. auto. }
  apply sgml_both; try discriminate.
  - intros nm prefix local a kids b nm' prefix' local' w e Hn Hq Ha Hk _ _ Hn' Hq' Hw He p l ->.
    destruct He as [(_ & _ & ?)|(_ & [= -> ->])]; [discriminate|].
    exists (bs "<" ++ nm ++ a ++ bs ">" ++ b), nm', w. rewrite <- !app_assoc. auto.
  - intros nm prefix local a kids b prefix' local' e Hn Hq Ha Hs _ IH He p l ->.
    destruct He as [(_ & _ & ?)|(_ & [= -> ->])]; [discriminate|].
    replace (bs "<" ++ nm ++ a ++ bs ">" ++ b) with ((bs "<" ++ nm ++ a ++ bs ">") ++ b) by (rewrite <- !app_assoc; reflexivity).
    apply Hpre. apply IH. reflexivity.
  - intros n b kids o rest _ _ _ IH p l E. apply Hpre, IH, E.
  - intros n b kid kids o rest _ _ _ _ IH p l E. apply Hpre, IH, E.
  - intros n b prefix local _ IH p l [= -> ->]. apply IH. reflexivity.
  - intros t raw kids o rest _ _ _ _ IH p l E. apply Hpre, IH, E.
  - intros t raw kids o rest _ _ IH p l E. do 3 apply Hpre. apply IH, E.
  - intros c kids o rest _ _ IH p l E. do 3 apply Hpre. apply IH, E.
  - intros target i kids o rest _ _ IH p l E. do 4 apply Hpre. apply IH, E.
  - intros c d kids o rest _ _ _ _ IH p l E. do 4 apply Hpre. apply IH, E.
Qed.

Lemma root_ending local kids e b : sgml (Elem local kids) e b -> ~ simple_name local ->
  e = Ended \/ exists p l, e = Pending p l /\ l <> local.
Proof.
  intros H Hs. inversion H; subst; [auto | contradiction| |];
    match goal with H : ended_by _ _ _ _ _ |- _ => destruct H as [(_ & _ & ->)|(H & ->)]; eauto end.
Qed.
