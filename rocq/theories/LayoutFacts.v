(** Facts about the layout of what is written. *)
From Coq Require Import QArith Lia Bool.
From Coq Require Import List.
From Verif Require Import GoStr SpecStr GoStrFacts GoTime Types Enums EnumTables Records Common Messages Codec CodecSim
  SpecCodec Schema Document SpecDocument SetsFacts SpecXml Utf8 Xml XmlFacts SpellFacts LexFacts Leaves SpecWire FormFacts
  SimFacts Headers SpecHeader HeaderFacts WrittenHeaderFacts Wire WireFacts SpecLayout.
Close Scope Q_scope.

Scheme laid_out_mut := Minimality for laid_out Sort Prop
  with laid_kids_mut := Minimality for laid_kids Sort Prop.
Combined Scheme laid_both from laid_out_mut, laid_kids_mut.

Lemma newline_eol st : newline st = end_of_line (st_cr st).
Proof. reflexivity. Qed.

Lemma spaces_blanks d : spaces d = repeat blank (4 * d).
Proof.
  unfold spaces. induction d as [|d IH]; [reflexivity|]. cbn [repeat concat]. rewrite IH.
  replace (4 * S d) with (4 + 4 * d) by lia. rewrite repeat_app. reflexivity.
Qed.

Lemma line_start_gap st d : line_start st false d = gap (st_indent st) (st_cr st) d.
Proof. unfold line_start, gap. destruct (st_indent st); [rewrite spaces_blanks|]; reflexivity. Qed.

Lemma line_start_first st : line_start st true 0 = [].
Proof. unfold line_start. destruct (st_indent st); reflexivity. Qed.

Lemma print_laid st leaf (nest : str -> Prop) :
  (forall nm, nest nm -> member nm (st_unclosed st) = false) ->
  forall n, document leaf nest n -> forall first depth, exists b,
    print st first depth n = line_start st first depth ++ b /\
    laid_out (fun nm => member nm (st_unclosed st) = false) (gap (st_indent st) (st_cr st)) depth n b.
Proof.
  intros Hnest. induction n as [nm kids IH|s|] using node_ind'; intros Hd first depth;
    [|apply document_elem in Hd; discriminate | apply document_elem in Hd; discriminate].
  exists (bs "<" ++ nm ++ bs ">" ++ concat (map (print st false (S depth)) kids) ++
          (if member nm (st_unclosed st) then []
           else (if existsb is_elem kids then line_start st false depth else []) ++
                bs "</" ++ nm ++ bs ">")). split; [reflexivity|].
  inversion Hd as [nm' s Hn Hx|nm' kids' Hn Hne Hk]; subst.
  - destruct (escape_repaired s) as (m & Hm & Hr).
    rewrite print_text_kids, text_kids_no_elem.
    destruct (member nm (st_unclosed st)) eqn:Em.
    + rewrite app_nil_r. change (laid_out (fun nm => member nm (st_unclosed st) = false) (gap (st_indent st) (st_cr st)) depth
        (Elem nm (text_kids s)) (bs "<" ++ nm ++ bs ">" ++ escape s)).
      replace (bs "<" ++ nm ++ bs ">" ++ escape s) with (start_tag nm ++ escape s)
        by (unfold start_tag; rewrite <- !app_assoc; reflexivity).
      eapply laid_open; eauto. congruence.
    + cbn [app]. replace (bs "<" ++ nm ++ bs ">" ++ escape s ++ bs "</" ++ nm ++ bs ">")
        with (start_tag nm ++ escape s ++ end_tag nm)
        by (unfold start_tag, end_tag; rewrite <- !app_assoc; reflexivity).
      eapply laid_text; eauto.
  - rewrite (Hnest nm Hne). destruct kids as [|k0 kids0].
    + cbn [map concat existsb app]. 
      replace (bs "<" ++ nm ++ bs ">" ++ bs "</" ++ nm ++ bs ">")
        with (start_tag nm ++ [] ++ end_tag nm)
        by (unfold start_tag, end_tag; rewrite <- !app_assoc; reflexivity).
      change (@nil node) with (text_kids []). eapply laid_text; [auto | constructor | constructor].
    + assert (He : existsb is_elem (k0 :: kids0) = true).
      { cbn [existsb]. rewrite (document_elem _ _ _ (Forall_inv Hk)). reflexivity. }
      rewrite He, line_start_gap.
      assert (Hne' : k0 :: kids0 <> []) by discriminate. revert Hne' IH Hk. generalize (k0 :: kids0) as kids.
      intros kids Hne' IH Hk.
      replace (bs "<" ++ nm ++ bs ">" ++ concat (map (print st false (S depth)) kids) ++
          gap (st_indent st) (st_cr st) depth ++ bs "</" ++ nm ++ bs ">")
        with (start_tag nm ++ concat (map (print st false (S depth)) kids) ++ gap (st_indent st) (st_cr st) depth ++ end_tag nm)
        by (unfold start_tag, end_tag; rewrite <- !app_assoc; reflexivity).
      apply laid_elems; auto. clear Hne'. induction kids as [|k kids IHk]; [constructor|].
      cbn [map concat]. destruct (Forall_inv IH (Forall_inv Hk) false (S depth)) as (b & E & Hb).
      rewrite E, line_start_gap, <- app_assoc. constructor; [exact Hb|].
      apply IHk; [exact (Forall_inv_tail IH) | exact (Forall_inv_tail Hk)].
Qed.

(** ** Headers *)

Lemma one_line_b s : forallb (fun c => negb (Ascii.eqb c line_feed || Ascii.eqb c carriage_return)) s = true -> one_line s.
Proof.
  intros H. rewrite forallb_forall in H.
  split; intros Hin; specialize (H _ Hin); rewrite Ascii.eqb_refl in H; cbn in H; try rewrite orb_true_r in H; discriminate.
Qed.

Lemma lines_b ls :
  forallb (forallb (fun c => negb (Ascii.eqb c line_feed || Ascii.eqb c carriage_return))) ls = true -> Forall one_line ls.
Proof. intros H. apply Forall_forall. intros l Hl. apply one_line_b. rewrite forallb_forall in H. exact (H l Hl). Qed.

Lemma header_lines v crlf : exists lines, header_of v lines /\ Forall one_line lines /\
  header_or_nothing v crlf = concat (map (fun l => l ++ end_of_line crlf) lines).
Proof.
  unfold header_or_nothing. destruct (write_header v crlf) as [h|] eqn:E.
  - assert (known_version v) as [text Ht] by (apply (known_version_iff v crlf); eauto).
    apply in_app_or in Ht as [Ht|Ht]; eexists.
    + split; [apply header_of_sgml; exact Ht|].
      cbn [In sgml_versions] in Ht. repeat destruct Ht as [Ht|Ht]; [..|contradiction]; injection Ht as <- <-;
        (split; [apply lines_b; vm_compute; reflexivity|]);
        destruct crlf; apply Some_inj in E; subst h; vm_compute; reflexivity.
    + split; [apply header_of_xml; exact Ht|].
      cbn [In xml_versions] in Ht. repeat destruct Ht as [Ht|Ht]; [..|contradiction]; injection Ht as <- <-;
        (split; [apply lines_b; vm_compute; reflexivity|]);
        destruct crlf; apply Some_inj in E; subst h; vm_compute; reflexivity.
  - exists []. split; [|split; [constructor | reflexivity]]. apply header_of_none. intros Hk.
    apply (known_version_iff v crlf) in Hk as [h Hh]. congruence.
Qed.

Lemma container_closed st : (st_unclosed st = [] \/ st_unclosed st = ofx_leaf_elements) ->
  forall nm, container nm -> member nm (st_unclosed st) = false.
Proof.
  intros [-> | ->] nm Hc; [reflexivity|].
  destruct (member nm ofx_leaf_elements) eqn:E; [|reflexivity]. apply leaves_upper in E. unfold container in Hc. congruence.
Qed.

Lemma laid_impl (P Q : str -> Prop) before : (forall nm, P nm <-> Q nm) ->
  (forall d n b, laid_out P before d n b -> laid_out Q before d n b) /\
  (forall d n b, laid_kids P before d n b -> laid_kids Q before d n b).
Proof.
  intros H. apply laid_both; intros.
  - eapply laid_text; eauto. apply H. assumption.
  - eapply laid_open; eauto. rewrite <- H. assumption.
  - eapply laid_elems; eauto. apply H. assumption.
  - constructor.
  - constructor; assumption.
Qed.

Lemma member_iff nm l : member nm l = false <-> ~ In nm l.
Proof.
  unfold member. induction l as [|x l IH]; cbn [existsb In]; [tauto|].
  rewrite orb_false_iff, IH. destruct (str_eqb nm x) eqn:E.
  - apply str_eqb_eq in E. subst. intuition congruence.
  - assert (x <> nm) by (intros ->; rewrite str_eqb_refl in E; discriminate). tauto.
Qed.

Theorem request_layout q s q' : request_marshal q = Some (s, q') ->
  exists t lines body, request_tree q = Some (t, q') /\
    s = concat (map (fun l => l ++ end_of_line (rq_cr q)) lines) ++ body /\ header_of (rq_version q) lines /\ Forall one_line lines /\
    laid_out (fun nm => (OfxVersion200 <= rq_version q)%N \/ ~ In nm ofx_leaf_elements)
      (gap (rq_indent q) (rq_cr q)) 0 t body.
Proof.
  intros Hm. unfold request_marshal in Hm. destruct (request_tree q) as [[t q0]|] eqn:Et; [|discriminate].
  cbn [bind fst snd] in Hm. apply Some_inj in Hm. apply pair_equal_spec in Hm as [Hs ->].
  destruct (header_lines (rq_version q) (rq_cr q)) as (lines & Hh & Hl & Eh).
  destruct (request_doc_any q t q' Et) as (k & -> & Hk & Hd).
  assert (Hun : st_unclosed (request_style q) = [] \/ st_unclosed (request_style q) = ofx_leaf_elements)
    by (destruct (request_style_unclosed q) as [H|[_ H]]; [left|right]; exact H).
  destruct (print_laid (request_style q) _ container (container_closed _ Hun) _
    (root_document _ _ Hd) true 0) as (b & Eb & Hb).
  rewrite line_start_first in Eb. cbn [app] in Eb.
  exists (Elem (bs "OFX") k), lines, b. split; [reflexivity|]. split; [rewrite <- Eh, <- Eb; congruence|]. split; [exact Hh|]. split; [exact Hl|].
  revert Hb. apply laid_impl. intros nm. unfold request_style. cbn [st_unclosed].
  destruct (N.ltb_spec (rq_version q) OfxVersion200) as [Hv|Hv].
  - rewrite member_iff. split; [auto|]. intros [H|H]; [exfalso; lia | exact H].
  - cbn [member existsb]. intuition.
Qed.

Theorem response_layout r s : response_named r -> response_marshal r = Some s ->
  exists t lines body, response_tree r = Some t /\
    s = concat (map (fun l => l ++ end_of_line false) lines) ++ body /\ header_of (rs_version r) lines /\ Forall one_line lines /\
    laid_out (fun _ => True) (gap true false) 0 t body.
Proof.
  intros Hn Hm. unfold response_marshal in Hm. destruct (response_tree r) as [t|] eqn:Et; [|discriminate].
  cbn [bind] in Hm. apply Some_inj in Hm.
  destruct (header_lines (rs_version r) false) as (lines & Hh & Hl & Eh).
  destruct (response_doc_any r t Hn Et) as (k & -> & Hk & Hd).
  destruct (print_laid (mkStyle true false []) _ container (container_closed (mkStyle true false []) (or_introl eq_refl)) _
    (root_document _ _ Hd) true 0) as (b & Eb & Hb).
  rewrite line_start_first in Eb. cbn [app] in Eb.
  exists (Elem (bs "OFX") k), lines, b. split; [reflexivity|]. split; [rewrite <- Eh, <- Eb; congruence|]. split; [exact Hh|]. split; [exact Hl|].
  revert Hb. apply laid_impl. intros nm. cbn. tauto.
Qed.

(** ** Line ends *)

Lemma plain_one_line nm : plain_name nm -> one_line nm.
Proof.
  intros (c & r & -> & Hc & Hr). 
  assert (H : forall x, In x (c :: r) -> letter x \/ digit x \/ code x = 95%N \/ code x = 46%N \/ code x = 45%N).
  { intros x [<-|Hx]; [tauto|]. rewrite Forall_forall in Hr. apply Hr, Hx. }
  split; intros Hin; specialize (H _ Hin); unfold letter, digit in H;
    [change (code line_feed) with 10%N in H | change (code carriage_return) with 13%N in H]; lia.
Qed.

Lemma one_line_app a b : one_line a -> one_line b -> one_line (a ++ b).
Proof. intros [H1 H2] [H3 H4]. split; rewrite in_app_iff; tauto. Qed.

(** What a document whose gaps end lines as [eol] says consists of. *)
Inductive pieces (eol : str) : str -> Prop :=
| pieces_nil : pieces eol []
| pieces_line c s : c <> line_feed -> c <> carriage_return -> pieces eol s -> pieces eol (c :: s)
| pieces_end s : pieces eol s -> pieces eol (eol ++ s).

Lemma pieces_app eol a b : pieces eol a -> pieces eol b -> pieces eol (a ++ b).
Proof. intros Ha Hb. induction Ha; [exact Hb | constructor; assumption|]. rewrite <- app_assoc. constructor. assumption. Qed.

Lemma one_line_pieces eol s : one_line s -> pieces eol s.
Proof.
  induction s as [|c s IH]; intros [H1 H2]; [constructor|]. cbn [In] in H1, H2. constructor; try (intros ->; tauto).
  apply IH. split; tauto.
Qed.

Lemma tag_one_line nm : plain_name nm -> one_line (start_tag nm) /\ one_line (end_tag nm).
Proof.
  intros H. apply plain_one_line in H. unfold start_tag, end_tag.
  split; repeat apply one_line_app; auto; apply one_line_b; reflexivity.
Qed.

Lemma written_one_line raw m : written raw m -> one_line raw.
Proof. intros H. split; apply (written_no_markup raw m H); cbn; tauto. Qed.

Lemma blanks_one_line k : one_line (repeat blank k).
Proof. split; intros H; apply repeat_spec in H; discriminate. Qed.

Lemma gap_pieces indent carriage d : pieces (end_of_line carriage) (gap indent carriage d).
Proof.
  unfold gap. destruct indent; [|constructor]. apply pieces_end, one_line_pieces, blanks_one_line.
Qed.

(** Every element of the tree has a name without line ends. *)
Inductive named : node -> Prop := named_elem nm kids : plain_name nm -> Forall (fun k => is_elem k = true -> named k) kids -> named (Elem nm kids).

Lemma document_named leaf nest n : document leaf nest n -> named n.
Proof.
  induction n as [nm kids IH|s|] using node_ind'; intros Hd;
    [|apply document_elem in Hd; discriminate | apply document_elem in Hd; discriminate].
  inversion Hd as [nm' s Hn Hx|nm' kids' Hn Hne Hk]; subst; constructor; auto.
  - destruct s; repeat constructor. discriminate.
  - rewrite Forall_forall in *. intros k Hin _. apply IH; auto.
Qed.

Lemma laid_elem closed before d n b : laid_out closed before d n b -> is_elem n = true.
Proof. intros []; reflexivity. Qed.

Lemma laid_pieces closed before eol : (forall d, pieces eol (before d)) ->
  (forall d n b, laid_out closed before d n b -> named n -> pieces eol b) /\
  (forall d n b, laid_kids closed before d n b -> Forall (fun k => is_elem k = true -> named k) n -> pieces eol b).
Proof.
  intros Hbefore. apply laid_both.
  - intros d nm s m raw _ _ Hw Hn. inversion Hn; subst. destruct (tag_one_line nm) as [Hs He]; auto.
    apply one_line_pieces. apply one_line_app; [exact Hs|]. apply one_line_app; [|exact He]. exact (written_one_line _ _ Hw).
  - intros d nm s m raw _ _ Hw Hn. inversion Hn; subst. destruct (tag_one_line nm) as [Hs He]; auto.
    apply one_line_pieces. apply one_line_app; [exact Hs|]. exact (written_one_line _ _ Hw).
  - intros d nm kids b _ _ _ IH Hn. inversion Hn; subst. destruct (tag_one_line nm) as [Hs He]; auto.
    apply one_line_pieces with (eol := eol) in Hs, He. apply pieces_app; [exact Hs|]. apply pieces_app; [auto|]. apply pieces_app; auto.
  - constructor.
  - intros d n kids b b' Hl IHn _ IHk Hf. repeat apply pieces_app; auto.
    + apply IHn. apply (Forall_inv Hf). exact (laid_elem _ _ _ _ _ Hl).
    + apply IHk. exact (Forall_inv_tail Hf).
Qed.

Lemma pieces_lf s : pieces (end_of_line false) s -> ~ In carriage_return s.
Proof.
  remember (end_of_line false) as eol. induction 1 as [|c s H1 H2 _ IH|s _ IH]; [intros []| |]; subst.
  - intros [H|H]; [exact (H2 H) | exact (IH H)].
  - intros [H|H]; [discriminate | exact (IH H)].
Qed.

Lemma pieces_crlf s : pieces (end_of_line true) s -> crlf_only s.
Proof.
  remember (end_of_line true) as eol. intros H a b. revert a.
  induction H as [|c s H1 H2 _ IH|s _ IH]; subst; intros a.
  - split; intros E; destruct a; discriminate.
  - destruct a as [|x a]; [cbn [app]; split; intros E; injection E as -> _; congruence|]. cbn [app].
    destruct (IH a) as [IH1 IH2]. split; intros E; injection E as -> E; [|exact (IH2 E)].
    destruct (IH1 E) as [a' ->]. exists (x :: a'). reflexivity.
  - destruct a as [|x [|y a]]; cbn [end_of_line app].
    + split; intros E; [discriminate|]. injection E as <-. eauto.
    + split; intros E; injection E as <-; [exists []; reflexivity | discriminate].
    + destruct (IH a) as [IH1 IH2]. split; intros E; injection E as <- <- E; [|exact (IH2 E)].
      destruct (IH1 E) as [a' ->]. exists (carriage_return :: line_feed :: a'). reflexivity.
Qed.

Lemma header_pieces eol lines : Forall one_line lines -> pieces eol (concat (map (fun l => l ++ eol) lines)).
Proof.
  induction 1 as [|l lines Hl _ IH]; [constructor|]. cbn [map concat]. apply pieces_app; [|exact IH].
  apply pieces_app; [apply one_line_pieces, Hl|]. pose proof (pieces_end eol [] (pieces_nil eol)) as H. rewrite app_nil_r in H. exact H.
Qed.

Theorem request_line_ends q s q' : request_marshal q = Some (s, q') ->
  if rq_cr q then crlf_only s else ~ In carriage_return s.
Proof.
  intros Hm. destruct (request_layout q s q' Hm) as (t & lines & body & Et & -> & _ & Hl & Hb).
  destruct (request_doc_any q t q' Et) as (k & -> & Hk & Hd).
  assert (Hp : pieces (end_of_line (rq_cr q)) (concat (map (fun l => l ++ end_of_line (rq_cr q)) lines) ++ body)).
  { apply pieces_app; [apply header_pieces, Hl|].
    refine (proj1 (laid_pieces _ _ _ (gap_pieces _ _)) _ _ _ Hb _).
    eapply document_named. apply root_document, Hd. }
  destruct (rq_cr q); [apply pieces_crlf | apply pieces_lf]; exact Hp.
Qed.

Theorem response_line_ends r s : response_named r -> response_marshal r = Some s -> ~ In carriage_return s.
Proof.
  intros Hn Hm. destruct (response_layout r s Hn Hm) as (t & lines & body & Et & -> & _ & Hl & Hb).
  destruct (response_doc_any r t Hn Et) as (k & -> & Hk & Hd).
  apply pieces_lf. apply pieces_app; [apply header_pieces, Hl|].
  refine (proj1 (laid_pieces _ _ _ (gap_pieces true false)) _ _ _ Hb _).
  eapply document_named. apply root_document, Hd.
Qed.

(** Without Indent the OFX element is one line. *)
Theorem request_one_line q s q' : request_marshal q = Some (s, q') -> rq_indent q = false ->
  exists lines body, s = concat (map (fun l => l ++ end_of_line (rq_cr q)) lines) ++ body /\ Forall one_line lines /\
    one_line body /\ has_prefix (bs "<OFX>") body = true.
Proof.
  intros Hm Hi. destruct (request_layout q s q' Hm) as (t & lines & body & Et & -> & _ & Hl & Hb).
  destruct (request_doc_any q t q' Et) as (k & -> & Hk & Hd).
  exists lines, body. split; [reflexivity|]. split; [exact Hl|].
  assert (Hp : pieces [] body).
  { refine (proj1 (laid_pieces _ _ _ _) _ _ _ Hb _).
    - intros d. unfold gap. rewrite Hi. constructor.
    - eapply document_named. apply root_document, Hd. }
  split.
  - clear - Hp. remember (@nil ascii) as eol. induction Hp as [|c s H1 H2 _ IH|s _ IH]; subst.
    + split; intros [].
    + destruct IH as [I1 I2]; split; intros [H|H]; congruence.
    + exact IH.
  - inversion Hb; subst; unfold start_tag; reflexivity.
Qed.
