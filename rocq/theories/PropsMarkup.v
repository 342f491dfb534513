(** C68-C70: the grammar of the documents that are read, the layout of those that
    are written, and tags that do not match. *)
From Coq Require Import QArith Lia Bool String.
From Coq Require Import List.
From Verif Require Import GoStr SpecStr GoTime Types Enums EnumTables Records Common Messages Codec Schema Document
  SpecDocument SpecXml Xml XmlFacts SpellFacts Leaves SpecWire FormFacts Headers SpecHeader HeaderFacts WrittenHeaderFacts
  Wire WireFacts ExtendFacts SpecDecode AlikeDocs Samples SpecMarkup MarkupText MarkupTags MarkupDocs SpecLayout LayoutFacts PropsDecode.
Close Scope Q_scope.
Close Scope string_scope.
Open Scope list_scope.

(** ** The grammar of XML documents *)

(** C68: a document that does not look like SGML is read iff it follows the
    grammar, and then the tree is the one the grammar gives. *)
Theorem C68_grammar : forall s v n, ~ looks_like_sgml s -> (read_document s = Some (v, n) <-> xml_document v n s).
Proof. exact read_document_iff. Qed.
Print Assumptions C68_grammar.

(** In particular whatever is accepted follows the grammar from its first byte to
    the end tag of the OFX element, *)
Theorem C68_accepted : forall e s r, ~ looks_like_sgml s -> decode_response e s = Some r ->
  exists n, xml_document (rs_version r) n s.
Proof.
  intros e s r Hs H. unfold decode_response in H. destruct (read_document s) as [[v n]|] eqn:E; [|discriminate].
  cbn [bind fst snd] in H. apply decode_ofx_version in H as ->. exists n. apply read_document_iff; assumption.
Qed.
Print Assumptions C68_accepted.

(** the grammar leaves no choice how to read a document, *)
Theorem C68_unambiguous : forall s v v' n n', ~ looks_like_sgml s ->
  xml_document v n s -> xml_document v' n' s -> v = v' /\ n = n'.
Proof.
  intros s v v' n n' Hs H H'. apply read_document_iff in H; [|exact Hs]. apply read_document_iff in H'; [|exact Hs].
  rewrite H in H'. injection H' as -> ->. auto.
Qed.
Print Assumptions C68_unambiguous.

(** and how a tree is written - references, CDATA sections, attributes, prefixes,
    empty element tags - makes no difference to the response. *)
Theorem C68_spellings : forall e s s' v n n', ~ looks_like_sgml s -> ~ looks_like_sgml s' ->
  xml_document v n s -> xml_document v n' s' -> alike n n' -> decode_response e s = decode_response e s'.
Proof.
  intros e s s' v n n' Hs Hs' H H' Ha. eapply alike_decode; [| |exact Ha]; apply read_document_iff; eassumption.
Qed.
Print Assumptions C68_spellings.

(** The sign-on response in XML, in plain and in less plain spelling. *)
Definition q : str := [chr 34].
Definition case_xml_header : str :=
  bs "<?xml version=" ++ q ++ bs "1.0" ++ q ++ bs "?>" ++ [chr 10] ++
  bs "<?OFX OFXHEADER=" ++ q ++ bs "200" ++ q ++ bs " VERSION=" ++ q ++ bs "203" ++ q ++ bs "?>" ++ [chr 10].
Definition case_xml : str := case_xml_header ++
  bs "<OFX><SIGNONMSGSRSV1><SONRS><STATUS><CODE>0</CODE><SEVERITY>INFO</SEVERITY><MESSAGE>A &amp; B</MESSAGE></STATUS><DTSERVER>20060115112303</DTSERVER><LANGUAGE>ENG</LANGUAGE></SONRS></SIGNONMSGSRSV1></OFX>".
Definition case_odd : str := bs "  " ++ bs "<?xml version='1.0' standalone=yes?>" ++ [chr 10] ++
  bs "<![CDATA[  ]]><?OFX  VERSION=" ++ q ++ bs "203" ++ q ++ bs "OFXHEADER=" ++ q ++ bs "200" ++ q ++ bs " ?>" ++
  bs "<o:OFX xmlns:o='http://ofx.net/'><SIGNONMSGSRSV1 id = 'a&lt;b'><SONRS><STATUS><!-- code <0> --><CODE>0</CODE ><SEVERITY>&#73;N&#x46;O</SEVERITY><MESSAGE>A <![CDATA[& B]]></MESSAGE></STATUS><?pi?><!DOCTYPE a [<!ENTITY b '>'>]><DTSERVER>20060115112303</DTSERVER><LANGUAGE>ENG</LANGUAGE></SONRS></SIGNONMSGSRSV1></o:OFX> and <more".

Example C68_case :
  ~ looks_like_sgml case_xml /\ ~ looks_like_sgml case_odd /\
  (exists n, xml_document OfxVersion203 n case_xml) /\ (exists n, xml_document OfxVersion203 n case_odd) /\
  decodes sample_env case_xml = true /\ decode_response sample_env case_xml = decode_response sample_env case_odd /\
  decode_response sample_env (case_xml_header ++ bs "<OFX><SIGNONMSGSRSV1></OFX>") = None.
Proof.
  assert (H1 : ~ looks_like_sgml case_xml) by (rewrite <- guess_sgml_iff; vm_compute; discriminate).
  assert (H2 : ~ looks_like_sgml case_odd) by (rewrite <- guess_sgml_iff; vm_compute; discriminate).
  split; [exact H1|]. split; [exact H2|].
  split; [eexists; apply read_document_iff; [exact H1 | vm_compute; reflexivity]|].
  split; [eexists; apply read_document_iff; [exact H2 | vm_compute; reflexivity]|].
  split; [vm_compute; reflexivity|]. split; vm_compute; reflexivity.
Qed.

(** ** The layout of documents *)

(** C69: a request is its header, line by line, and the OFX element, laid out as
    the settings say: with Indent four blanks for each level, with
    CarriageReturn CR LF at the end of each line. Nothing else is between the
    elements, and only simple elements before version 2 have no end tag. *)
Theorem C69_request : forall q s q', request_marshal q = Some (s, q') ->
  exists t lines body, request_tree q = Some (t, q') /\
    s = concat (map (fun l => l ++ end_of_line (rq_cr q)) lines) ++ body /\ header_of (rq_version q) lines /\ Forall one_line lines /\
    laid_out (fun nm => (OfxVersion200 <= rq_version q)%N \/ ~ In nm ofx_leaf_elements)
      (gap (rq_indent q) (rq_cr q)) 0 t body.
Proof. exact request_layout. Qed.
Print Assumptions C69_request.

(** A response is always indented, with LF. *)
Theorem C69_response : forall r s, response_named r -> response_marshal r = Some s ->
  exists t lines body, response_tree r = Some t /\
    s = concat (map (fun l => l ++ end_of_line false) lines) ++ body /\ header_of (rs_version r) lines /\ Forall one_line lines /\
    laid_out (fun _ => True) (gap true false) 0 t body.
Proof. exact response_layout. Qed.
Print Assumptions C69_response.

(** So with CarriageReturn every line feed comes with a carriage return, whatever
    text is in the fields, and without it there is no carriage return at all; *)
Theorem C69_line_ends : forall q s q', request_marshal q = Some (s, q') ->
  if rq_cr q then crlf_only s else ~ In carriage_return s.
Proof. exact request_line_ends. Qed.
Print Assumptions C69_line_ends.

Theorem C69_response_line_ends : forall r s, response_named r -> response_marshal r = Some s -> ~ In carriage_return s.
Proof. exact response_line_ends. Qed.
Print Assumptions C69_response_line_ends.

(** and without Indent the whole OFX element is on one line. *)
Theorem C69_one_line : forall q s q', request_marshal q = Some (s, q') -> rq_indent q = false ->
  exists lines body, s = concat (map (fun l => l ++ end_of_line (rq_cr q)) lines) ++ body /\ Forall one_line lines /\
    one_line body /\ has_prefix (bs "<OFX>") body = true.
Proof. exact request_one_line. Qed.
Print Assumptions C69_one_line.

Definition case_request (v : N) (indent cr : bool) : Request :=
  mkRequest (rq_url sample_request) v (rq_signon sample_request) (rq_slots sample_request) indent cr.
Definition marshalled (q : Request) : bool := match request_marshal q with Some _ => true | None => false end.
Definition feeds (q : Request) : nat :=
  match request_marshal q with Some (s, _) => length (filter (Ascii.eqb line_feed) s) | None => 0 end.

Example C69_case :
  marshalled (case_request OfxVersion102 true true) = true /\ marshalled (case_request OfxVersion203 false false) = true /\
  feeds (case_request OfxVersion203 false true) = 2 /\ feeds (case_request OfxVersion203 true true) > 40 /\
  response_named sample_response /\ exists s, response_marshal sample_response = Some s.
Proof.
  split; [vm_compute; reflexivity|]. split; [vm_compute; reflexivity|]. split; [vm_compute; reflexivity|].
  split; [vm_compute; lia|]. split; [exact sample_response_named|].
  destruct (response_marshal sample_response) as [s|] eqn:E; [eauto|]. exfalso. revert E. vm_compute. discriminate.
Qed.

(** ** Tags that do not match *)

(** C70: in an XML document that is accepted all tags match, as the grammar says. *)
Theorem C70_xml_partial : forall e s r, ~ looks_like_sgml s -> decode_response e s = Some r ->
  exists n, xml_document (rs_version r) n s.
Proof. exact C68_accepted. Qed.
Print Assumptions C70_xml_partial.

(** In SGML an end tag that matches no start tag does not make the document fail.
    It ends the document, and whatever comes after it is lost: here a statement,
    which is read if the stray tag is not there. *)
Definition sign_on_part : str :=
  bs "<OFX><SIGNONMSGSRSV1><SONRS><STATUS><CODE>0<SEVERITY>INFO</STATUS><DTSERVER>20060115112303<LANGUAGE>ENG</SONRS></SIGNONMSGSRSV1>".
Definition bank_part : str :=
  bs "<BANKMSGSRSV1><STMTTRNRS><TRNUID>1001<STATUS><CODE>0<SEVERITY>INFO</STATUS></STMTTRNRS></BANKMSGSRSV1></OFX>".
Definition bank_messages (r : option Response) : option nat :=
  match r with Some r => Some (length (sl_bank (rs_slots r))) | None => None end.

Theorem C70_sgml_refuted : exists h before statement,
  sgml_header_for OfxVersion102 h /\ length h < 1024 /\
  bank_messages (decode_response sample_env (h ++ before ++ statement)) = Some 1 /\
  forall after, bank_messages (decode_response sample_env (h ++ before ++ bs "</TYPO>" ++ after)) = Some 0.
Proof.
  exists case_header, sign_on_part, bank_part. split; [|split; [|split]].
  - destruct (sgml_header_sound (case_header ++ bs "<") OfxVersion102 (bs "<")) as (h & E & Hh & _); [vm_compute; reflexivity|].
    apply app_inv_tail in E. rewrite E. exact Hh.
  - vm_compute. lia.
  - vm_compute. reflexivity.
  - intros after. destruct (decode_response sample_env (case_header ++ sign_on_part ++ bs "</TYPO>")) as [r|] eqn:E;
      [|exfalso; revert E; vm_compute; discriminate].
    assert (Er : bank_messages (Some r) = Some 0) by (rewrite <- E; vm_compute; reflexivity).
    apply (decode_ext _ _ _ after) in E. rewrite <- !app_assoc in E. rewrite E. exact Er.
Qed.
Print Assumptions C70_sgml_refuted.
