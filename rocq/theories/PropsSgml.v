(** C73: the grammar of the SGML documents that are read. *)
From Coq Require Import QArith Lia Bool String.
From Coq Require Import List.
From Verif Require Import GoStr SpecStr GoTime Types Enums EnumTables Records Common Messages Codec Schema Document
  SpecDocument SpecXml Xml XmlFacts SpellFacts Leaves SpecWire FormFacts Headers SpecHeader HeaderFacts WrittenHeaderFacts
  Wire WireFacts ExtendFacts SpecDecode AlikeDocs Samples SpecMarkup MarkupText MarkupTags MarkupDocs PropsDecode PropsMarkup
  SpecSgml SgmlText SgmlTags SgmlDocs SgmlRead.
Close Scope Q_scope.
Close Scope string_scope.
Open Scope list_scope.

(** C73: a document that looks like SGML is read iff it follows the grammar, and
    then the tree is the one the grammar gives. *)
Theorem C73_grammar : forall s v n, looks_like_sgml s ->
  (read_document s = Some (v, n) <-> exists e, sgml_document v n e s).
Proof. exact read_sgml_document_iff. Qed.
Print Assumptions C73_grammar.

(** In particular whatever is accepted follows the grammar, *)
Theorem C73_accepted : forall e s r, looks_like_sgml s -> decode_response e s = Some r ->
  exists n d, sgml_document (rs_version r) n d s.
Proof.
  intros e s r Hs H. unfold decode_response in H. destruct (read_document s) as [[v n]|] eqn:E; [|discriminate].
  cbn [bind fst snd] in H. apply decode_ofx_version in H as ->. exists n. apply read_sgml_document_iff; assumption.
Qed.
Print Assumptions C73_accepted.

(** the grammar leaves no choice how to read a document, *)
Theorem C73_unambiguous : forall s v v' n n' d d', looks_like_sgml s ->
  sgml_document v n d s -> sgml_document v' n' d' s -> v = v' /\ n = n'.
Proof.
  intros s v v' n n' d d' Hs H H'.
  assert (E : read_document s = Some (v, n)) by (apply read_sgml_document_iff; eauto).
  assert (E' : read_document s = Some (v', n')) by (apply read_sgml_document_iff; eauto).
  rewrite E in E'. injection E' as -> ->. auto.
Qed.
Print Assumptions C73_unambiguous.

(** and how a tree is written - with or without end tags, references, CDATA
    sections, attributes - makes no difference to the response. *)
Theorem C73_spellings : forall e s s' v n n' d d', looks_like_sgml s -> looks_like_sgml s' ->
  sgml_document v n d s -> sgml_document v n' d' s' -> alike n n' -> decode_response e s = decode_response e s'.
Proof.
  intros e s s' v n n' d d' Hs Hs' H H' Ha. eapply alike_decode; [| |exact Ha]; apply read_sgml_document_iff; eauto.
Qed.
Print Assumptions C73_spellings.

(** A well-formed XML element in which simple elements hold only text is read as
    in an XML document. *)
Theorem C73_well_formed : forall n b, markup n b -> simple_hold_text n -> sgml n Ended b.
Proof. exact (proj1 markup_sgml). Qed.
Print Assumptions C73_well_formed.

Theorem C73_same_as_xml : forall e v h n b rest x,
  sgml_header_for v h -> length h < 1024 -> looks_like_sgml (h ++ b ++ rest) -> ~ looks_like_sgml x ->
  xml_document v n x -> markup n b -> simple_hold_text n ->
  decode_response e (h ++ b ++ rest) = decode_response e x.
Proof.
  intros e v h n b rest x Hh Hl Hs Hx' Hx Hm Ht.
  assert (Hn : exists kids, n = Elem (bs "OFX") kids)
    by (destruct Hx as (? & ? & ? & ? & ? & ? & ? & kids & ? & ? & ? & ? & ? & ? & ? & -> & ?); eauto).
  assert (E : read_document (h ++ b ++ rest) = Some (v, n)).
  { apply read_sgml_document_iff; [exact Hs|]. destruct Hn as [kids Hn]. exists Ended, h, [], b, rest, kids.
    split; [reflexivity|]. split; [exact Hh|]. split; [exact Hl|]. split; [constructor|]. split; [discriminate|].
    split; [exact Hn | apply C73_well_formed; assumption]. }
  apply read_document_iff in Hx; [|exact Hx']. unfold decode_response. rewrite E, Hx. reflexivity.
Qed.
Print Assumptions C73_same_as_xml.

(** The OFX element of a document that is read always ends with an end tag: its
    own, or one that has another name and then is of no open element. *)
Theorem C73_ending : forall v n d s, sgml_document v n d s ->
  d = Ended \/
  exists p l before nm w rest, d = Pending p l /\ l <> bs "OFX" /\
    s = before ++ bs "</" ++ nm ++ w ++ bs ">" ++ rest /\ xml_name nm /\ qualified nm p l /\ xml_ws w.
Proof.
  intros v n d s (h & g & b & rest & kids & -> & _ & _ & _ & _ & -> & Hm).
  destruct (root_ending _ _ _ _ Hm ofx_not_simple) as [->|(p & l & -> & Hl)]; [auto|]. right.
  destruct (proj1 pending_end _ _ _ Hm p l eq_refl) as (b0 & nm & w & -> & Hn & Hq & Hw).
  exists p, l, (h ++ g ++ b0), nm, w, rest. rewrite <- !app_assoc. auto 8.
Qed.
Print Assumptions C73_ending.

(** The sign-on response again, with the freedom the grammar leaves. *)
Definition odd_part : str :=
  bs "<![CDATA[ ]]>" ++ [chr 10] ++
  bs "<OFX><SIGNONMSGSRSV1 a=b checked c='d & e'><SONRS><STATUS><!-- <x> --><CODE note>0<SEVERITY>&#73;N<![CDATA[FO]]><?pi ?><MESSAGE>A & B &lt; C &c; &#xZ;</STATUS><DTSERVER>20060115112303<LANGUAGE>ENG</SIGNONMSGSRSV1 ></OFX> <more".
Definition plain_part : str :=
  bs "<OFX><SIGNONMSGSRSV1><SONRS><STATUS><CODE>0</CODE><SEVERITY>INFO</SEVERITY><MESSAGE>A &amp; B &lt; C &amp;c; &amp;#xZ;</MESSAGE></STATUS><DTSERVER>20060115112303</DTSERVER><LANGUAGE>ENG</LANGUAGE></SONRS></SIGNONMSGSRSV1></OFX>".

Example C73_case :
  looks_like_sgml (case_header ++ odd_part) /\ looks_like_sgml (case_header ++ plain_part) /\
  (exists n d, sgml_document OfxVersion102 n d (case_header ++ odd_part)) /\
  decodes sample_env (case_header ++ plain_part) = true /\
  decode_response sample_env (case_header ++ odd_part) = decode_response sample_env (case_header ++ plain_part) /\
  decode_response sample_env (case_header ++ bs "<OFX><SIGNONMSGSRSV1></x:SIGNONMSGSRSV1></OFX>") = None /\
  decode_response sample_env (case_header ++ bs "<!-- -->" ++ plain_part) = None.
Proof.
  assert (H1 : looks_like_sgml (case_header ++ odd_part)) by (apply guess_sgml_iff; vm_compute; reflexivity).
  split; [exact H1|]. split; [apply guess_sgml_iff; vm_compute; reflexivity|].
  split; [eexists; apply read_sgml_document_iff; [exact H1 | vm_compute; reflexivity]|].
  split; [vm_compute; reflexivity|]. split; [vm_compute; reflexivity|]. split; vm_compute; reflexivity.
Qed.

(** A document whose element ends with the end tag of no open element. *)
Lemma case_name nm : forallb is_upper nm = true -> nm <> [] -> xml_name nm /\ qualified nm [] nm.
Proof.
  intros H Hn. rewrite forallb_forall in H.
  assert (Hs : forall c, In c nm -> name_start c).
  { intros c Hc. left. apply H in Hc. unfold is_upper in Hc. apply andb_true_iff in Hc as [H1 H2]. apply N.leb_le in H1, H2. left. lia. }
  split.
  - destruct nm as [|c r]; [congruence|]. exists c, r. split; [reflexivity|]. split; [apply Hs; left; reflexivity|].
    apply Forall_forall. intros x Hx. left. apply Hs. right. exact Hx.
  - left. split; [reflexivity|]. split; [reflexivity|]. intros Hc. apply H in Hc. vm_compute in Hc. discriminate.
Qed.

Example C73_ending_case : sgml_document OfxVersion102 (Elem (bs "OFX") [Elem (bs "SONRS") [Text (bs "x")]]) (Pending [] (bs "SON"))
  (case_header ++ bs "<OFX><SONRS>x</SON></SONRS></OFX>").
Proof.
  exists case_header, [], (bs "<OFX><SONRS>x</SON>"), (bs "</SONRS></OFX>"), [Elem (bs "SONRS") [Text (bs "x")]].
  split; [reflexivity|]. split.
  { destruct (sgml_header_sound (case_header ++ bs "<") OfxVersion102 (bs "<")) as (h & E & Hh & _); [vm_compute; reflexivity|].
    apply app_inv_tail in E. rewrite E. exact Hh. }
  split; [vm_compute; lia|]. split; [constructor|]. split; [discriminate|]. split; [reflexivity|].
  assert (Hr : loose_rest []) by (split; [apply loose_none; constructor | discriminate]).
  assert (Hsonrs : ~ simple_name (bs "SONRS")) by (rewrite <- simple_iff; vm_compute; discriminate).
  change (bs "<OFX><SONRS>x</SON>") with (bs "<" ++ bs "OFX" ++ [] ++ bs ">" ++ bs "<SONRS>x</SON>").
  apply (sgml_inner _ [] (bs "OFX") [] _ _ [] (bs "SON")); try (apply case_name; [reflexivity | discriminate]); auto using ofx_not_simple;
    [|right; split; [discriminate | reflexivity]].
  apply sgmls_pending.
  change (bs "<SONRS>x</SON>") with (bs "<" ++ bs "SONRS" ++ [] ++ bs ">" ++ bs "x" ++ bs "</" ++ bs "SON" ++ [] ++ bs ">").
  apply (sgml_tag _ [] (bs "SONRS") [] _ _ (bs "SON") [] (bs "SON")); try (apply case_name; [reflexivity | discriminate]); auto;
    [contradiction | | constructor | right; split; [discriminate | reflexivity]].
  rewrite <- (app_nil_r (bs "x")) at 2. apply sgmls_text; [discriminate| |discriminate|constructor].
  split; [repeat constructor; discriminate|]. split.
  - intros (a & b & E). destruct a as [|c [|d a]]; discriminate.
  - destruct (loose_text_sound (bs "x<") (bs "x") (bs "<")) as (raw & E & (_ & _ & Hx) & _); [vm_compute; reflexivity | exact Hx].
Qed.
