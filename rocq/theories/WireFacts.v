(** Reading the documents that are written. *)
From Coq Require Import QArith Lia Bool ZifyBool ZifyNat ZifyN.
From Coq Require Import List.
From Verif Require Import GoStr SpecStr GoStrFacts GoTime Types Enums EnumTables Records Common Messages Codec CodecSim
  SpecCodec Schema Document SpecDocument SetsFacts SpecXml Utf8 Xml XmlFacts SpellFacts LexFacts Leaves SpecWire FormFacts
  SimFacts Headers SpecHeader HeaderFacts WrittenHeaderFacts Wire.
Close Scope Q_scope.

Lemma known_cases v : known_version v ->
  (OfxVersion102 <= v <= OfxVersion160)%N \/ (OfxVersion200 <= v <= OfxVersion220)%N.
Proof.
  intros [text H]. cbn [sgml_versions xml_versions app In] in H.
  unfold OfxVersion102, OfxVersion160, OfxVersion200, OfxVersion220.
  repeat (destruct H as [H|H]; [apply (f_equal snd) in H; cbn [snd] in H; subst v;
    unfold OfxVersion102, OfxVersion103, OfxVersion151, OfxVersion160, OfxVersion200, OfxVersion201,
      OfxVersion202, OfxVersion203, OfxVersion210, OfxVersion211, OfxVersion220; lia|]).
  contradiction.
Qed.

Lemma leaves_upper nm : member nm ofx_leaf_elements = true -> fold_member nm ofx_leaf_elements = true.
Proof.
  intros H. apply member_In in H.
  assert (Hall : forallb (fun x => str_eqb (map upper x) x) ofx_leaf_elements = true) by (vm_compute; reflexivity).
  rewrite forallb_forall in Hall. specialize (Hall nm H). apply str_eqb_eq in Hall.
  unfold fold_member. rewrite Hall. apply member_In. exact H.
Qed.

Lemma spells_start omit nest n b : spells omit nest n b -> exists r, b = "<"%char :: r.
Proof. intros []; eexists; reflexivity. Qed.

Lemma next_token_ws w ts : xml_ws w -> next_token (TChar w :: ts) = next_token ts.
Proof. intros H. cbn [next_token]. rewrite xml_ws_blank by exact H. reflexivity. Qed.

Lemma read_ofx_start st L w b rest ts n kids : xml_ws w -> (exists r, b = "<"%char :: r) ->
  lex st (b ++ rest) = TStart [] (bs "OFX") :: ts ->
  read_element st L ts [([], bs "OFX", [])] = Some n ->
  same_tree (Elem (bs "OFX") kids) n ->
  read_ofx st L (lex st (w ++ b ++ rest)) = Some n.
Proof.
  intros Hw [r Hb] E1 E2 _.
  assert (E : read_ofx st L (lex st (b ++ rest)) = Some n).
  { rewrite E1. unfold read_ofx. cbn [next_token bind fst snd]. rewrite str_eqb_refl. exact E2. }
  destruct w as [|c w]; [exact E|].
  destruct (lex_blank st (c :: w) (r ++ rest) Hw) as (w' & Hw' & El); [discriminate|].
  assert (Eb : b ++ rest = "<"%char :: r ++ rest) by (rewrite Hb; reflexivity).
  rewrite Eb in *. rewrite El. unfold read_ofx in *. rewrite next_token_ws by exact Hw'. exact E.
Qed.

Theorem read_spelled v crlf h (omit : str -> Prop) w b rest kids :
  known_version v -> write_header v crlf = Some h ->
  (forall nm, omit nm -> (v < OfxVersion200)%N /\ simple_element nm) ->
  xml_ws w -> ((v < OfxVersion200)%N -> w = []) ->
  kids <> [] -> Forall (fun k => is_elem k = true) kids ->
  spells omit container (Elem (bs "OFX") kids) b ->
  exists n, read_document (h ++ w ++ b ++ rest) = Some (v, n) /\ same_tree (Elem (bs "OFX") kids) n.
Proof.
  intros Hv Hh Homit Hw Hw0 Hk Hel Hs. pose proof (spells_start _ _ _ _ Hs) as Hlt. unfold read_document.
  destruct (known_cases v Hv) as [Hver|Hver].
  - assert (Hlow : (v < OfxVersion200)%N) by (unfold OfxVersion200, OfxVersion160 in *; lia).
    rewrite (Hw0 Hlow). cbn [app].
    destruct (written_sgml_read v crlf h (b ++ rest) Hver Hh) as [E1 E2].
    { destruct Hlt as [r ->]. eexists. reflexivity. }
    rewrite E1, E2. cbn [bind fst snd].
    destruct (spells_root false ofx_leaf_elements omit container (bs "OFX") kids b rest) as (ts & n & El & Er & Hn); auto.
    { intros nm Hnm. split; [reflexivity|]. apply simple_element_iff, Homit, Hnm. }
    exists n. split; [|exact Hn].
    pose proof (read_ofx_start false ofx_leaf_elements [] b rest ts n kids (Forall_nil _) Hlt El Er Hn) as E.
    cbn [app] in E. rewrite E. reflexivity.
  - destruct (written_xml v crlf h (w ++ b ++ rest) Hver Hh) as [E1 E2]. rewrite E1, E2. cbn [bind fst snd].
    assert (Hhigh : ~ (v < OfxVersion200)%N) by lia.
    destruct (spells_root true [] omit container (bs "OFX") kids b rest) as (ts & n & El & Er & Hn); auto.
    { intros nm Hnm. exfalso. apply Hhigh, (Homit nm Hnm). }
    { intros nm _. reflexivity. }
    exists n. split; [|exact Hn].
    assert (Hww : xml_ws (line_end crlf ++ w)) by (apply Forall_app; split; [apply line_end_ws | exact Hw]).
    pose proof (read_ofx_start true [] (line_end crlf ++ w) b rest ts n kids Hww Hlt El Er Hn) as E.
    rewrite <- app_assoc in E. rewrite E. reflexivity.
Qed.

(** ** Printed documents *)

Lemma docs_elems leaf k : docs leaf k -> Forall (fun x => is_elem x = true) k.
Proof. apply Forall_impl. intros x. apply document_elem. Qed.

Lemma repaired_elems_all k k' : Forall2 repaired_tree k k' -> Forall (fun x => is_elem x = true) k'.
Proof. induction 1 as [|x y k k' H _ IH]; constructor; auto. apply (repaired_is_elem _ _ H). Qed.

Theorem read_printed v crlf h leaf st rest k :
  known_version v -> write_header v crlf = Some h ->
  (st_unclosed st = [] \/ ((v < OfxVersion200)%N /\ st_unclosed st = ofx_leaf_elements)) ->
  k <> [] -> docs leaf k ->
  exists k' n, Forall2 repaired_tree k k' /\
    read_document (h ++ print st true 0 (Elem (bs "OFX") k) ++ rest) = Some (v, n) /\
    same_tree (Elem (bs "OFX") k') n.
Proof.
  intros Hv Hh Hst Hk Hd.
  assert (Hroot : document leaf container (Elem (bs "OFX") k)).
  { apply document_elems; [apply plainb_plain; reflexivity | vm_compute; reflexivity | exact Hd]. }
  assert (Hnest : forall nm, container nm -> member nm (st_unclosed st) = false).
  { intros nm Hc. destruct Hst as [->|[_ ->]]; [reflexivity|].
    destruct (member nm ofx_leaf_elements) eqn:E; [|reflexivity]. apply leaves_upper in E. unfold container in Hc. congruence. }
  destruct (print_spells st leaf container Hnest _ Hroot true 0) as (n' & w & b & Hr & Hw & [Ew [b' Eb]] & Ep & Hs).
  assert (Hw0 : w = []) by (rewrite Ew; unfold line_start; destruct (st_indent st); reflexivity).
  apply repaired_inv in Hr as [(s & m & E & _)|(k' & -> & Hr)].
  { exfalso. subst k. destruct s; [contradiction|]. apply Forall_inv in Hd. apply document_elem in Hd. discriminate. }
  assert (Hk' : k' <> []) by (destruct Hr; [contradiction | discriminate]).
  destruct (read_spelled v crlf h (fun nm => member nm (st_unclosed st) = true) w b rest k') as (n & E & Hn); auto.
  - intros nm Hnm. destruct Hst as [Hst|[H1 H2]].
    + rewrite Hst in Hnm. discriminate.
    + split; auto. rewrite H2 in Hnm. apply simple_element_iff, leaves_upper, Hnm.
  - eapply repaired_elems_all; eauto.
  - exists k', n. split; auto. split; auto. rewrite Ep, <- app_assoc. exact E.
Qed.

Corollary read_printed_clean v crlf h st rest k :
  known_version v -> write_header v crlf = Some h ->
  (st_unclosed st = [] \/ ((v < OfxVersion200)%N /\ st_unclosed st = ofx_leaf_elements)) ->
  k <> [] -> docs (fun _ s => xml_string s) k ->
  exists n, read_document (h ++ print st true 0 (Elem (bs "OFX") k) ++ rest) = Some (v, n) /\
    same_tree (Elem (bs "OFX") k) n.
Proof.
  intros Hv Hh Hst Hk Hd. destruct (read_printed v crlf h _ st rest k Hv Hh Hst Hk Hd) as (k' & n & Hr & E & Hn).
  assert (k' = k) as ->; [|eauto]. clear - Hd Hr. induction Hr as [|x y k k' H Hr IH]; [reflexivity|].
  f_equal; [exact (repaired_tree_same _ x (Forall_inv Hd) y H) | exact (IH (Forall_inv_tail Hd))].
Qed.

(** ** Responses *)

Lemma known_header v crlf : known_version v -> exists h, write_header v crlf = Some h.
Proof.
  intros H. destruct (known_cases v H) as [Hv|Hv].
  - destruct (written_sgml v crlf Hv) as (h & E & _). eauto.
  - eexists. apply write_xml. exact Hv.
Qed.

Theorem response_round_trip e r s rest :
  response_representable e r -> response_clean r -> known_version (rs_version r) ->
  response_marshal r = Some s -> decode_response e (s ++ rest) = Some r.
Proof.
  intros Hr Hc Hv Hm. unfold response_marshal in Hm.
  destruct (response_tree r) as [t|] eqn:Et; [|discriminate]. cbn [bind] in Hm.
  destruct (known_header (rs_version r) false Hv) as [h Hh]. unfold header_or_nothing in Hm. rewrite Hh in Hm.
  apply Some_inj in Hm. subst s.
  destruct (response_doc r t Hc Et) as (k & -> & Hk & Hd).
  destruct (read_printed_clean (rs_version r) false h (mkStyle true false []) rest k Hv Hh (or_introl eq_refl) Hk Hd) as (n & E & Hn).
  unfold decode_response. rewrite <- app_assoc, E. cbn [bind fst snd].
  rewrite <- (sim_decode_ofx e (rs_version r) _ _ (proj1 same_tree_sim _ _ Hn)).
  exact (document_round_trip e r _ Hr Et).
Qed.

(** ** Requests *)

Lemma request_style_unclosed q :
  st_unclosed (request_style q) = [] \/
  ((rq_version q < OfxVersion200)%N /\ st_unclosed (request_style q) = ofx_leaf_elements).
Proof.
  unfold request_style. cbn [st_unclosed]. destruct (N.ltb_spec (rq_version q) OfxVersion200); auto.
Qed.

(** What a reader of a request sees, whatever the text of the fields. *)
Theorem request_read q t q' s rest : known_version (rq_version q) ->
  request_tree q = Some (t, q') -> request_marshal q = Some (s, q') ->
  exists t' n, repaired_tree t t' /\ read_document (s ++ rest) = Some (rq_version q, n) /\ same_tree t' n.
Proof.
  intros Hv Et Hm. unfold request_marshal in Hm. rewrite Et in Hm. cbn [bind fst snd] in Hm.
  destruct (known_header (rq_version q) (rq_cr q) Hv) as [h Hh]. unfold header_or_nothing in Hm. rewrite Hh in Hm.
  apply Some_inj in Hm. apply (f_equal fst) in Hm. cbn [fst] in Hm. subst s.
  destruct (request_doc_any q t q' Et) as (k & -> & Hk & Hd).
  destruct (read_printed (rq_version q) (rq_cr q) h _ (request_style q) rest k Hv Hh (request_style_unclosed q) Hk Hd) as (k' & n & Hr & E & Hn).
  exists (Elem (bs "OFX") k'), n. split; [apply repaired_elems; exact Hr|]. rewrite <- app_assoc. auto.
Qed.

Theorem request_read_clean q t q' s rest : known_version (rq_version q) -> request_clean q ->
  request_tree q = Some (t, q') -> request_marshal q = Some (s, q') ->
  exists n, read_document (s ++ rest) = Some (rq_version q, n) /\ same_tree t n.
Proof.
  intros Hv Hc Et Hm. unfold request_marshal in Hm. rewrite Et in Hm. cbn [bind fst snd] in Hm.
  destruct (known_header (rq_version q) (rq_cr q) Hv) as [h Hh]. unfold header_or_nothing in Hm. rewrite Hh in Hm.
  apply Some_inj in Hm. apply (f_equal fst) in Hm. cbn [fst] in Hm. subst s.
  destruct (request_doc q t q' Hc Et) as (k & -> & Hk & Hd).
  destruct (read_printed_clean (rq_version q) (rq_cr q) h (request_style q) rest k Hv Hh (request_style_unclosed q) Hk Hd) as (n & E & Hn).
  exists n. rewrite <- app_assoc. auto.
Qed.

(** Response documents whatever the text of their fields. *)
Theorem response_read r t s rest : known_version (rs_version r) -> response_named r ->
  response_tree r = Some t -> response_marshal r = Some s ->
  exists t' n, repaired_tree t t' /\ read_document (s ++ rest) = Some (rs_version r, n) /\ same_tree t' n.
Proof.
  intros Hv Hn Et Hm. unfold response_marshal in Hm. rewrite Et in Hm. cbn [bind] in Hm.
  destruct (known_header (rs_version r) false Hv) as [h Hh]. unfold header_or_nothing in Hm. rewrite Hh in Hm.
  apply Some_inj in Hm. subst s.
  destruct (response_doc_any r t Hn Et) as (k & -> & Hk & Hd).
  destruct (read_printed (rs_version r) false h _ (mkStyle true false []) rest k Hv Hh (or_introl eq_refl) Hk Hd) as (k' & n & Hr & E & Hn').
  exists (Elem (bs "OFX") k'), n. split; [apply repaired_elems; exact Hr|]. rewrite <- app_assoc. auto.
Qed.

(** ** Headers, once more *)

Lemma known_version_iff v crlf : known_version v <-> exists h, write_header v crlf = Some h.
Proof.
  split; [apply known_header|]. intros [h H]. unfold write_header in H.
  destruct ((OfxVersion102 <=? v) && (v <=? OfxVersion160))%N eqn:E1.
  - apply andb_true_iff in E1 as [E1 E2]. apply N.leb_le in E1, E2.
    destruct (version_cases v (conj E1 E2)) as [->|[->|[->| ->]]]; eexists; apply in_or_app; left; cbn [sgml_versions In]; eauto.
  - destruct ((OfxVersion200 <=? v) && (v <=? OfxVersion220))%N eqn:E2; [|discriminate].
    apply andb_true_iff in E2 as [E2 E3]. apply N.leb_le in E2, E3.
    destruct (xml_version_cases v (conj E2 E3)) as [->|[->|[->|[->|[->|[->| ->]]]]]]; eexists; apply in_or_app; right;
      cbn [xml_versions In]; eauto 9.
Qed.

Lemma low_version v : known_version v -> (v < OfxVersion200)%N -> (OfxVersion102 <= v <= OfxVersion160)%N.
Proof. intros H Hv. destruct (known_cases v H); [assumption|lia]. Qed.

Lemma high_version v : known_version v -> (OfxVersion200 <= v)%N -> (OfxVersion200 <= v <= OfxVersion220)%N.
Proof. intros H Hv. destruct (known_cases v H); [|assumption]. unfold OfxVersion200, OfxVersion160 in *. lia. Qed.

Lemma written_dialect v crlf h body : write_header v crlf = Some h ->
  guess_xml (h ++ bs "<" ++ body) = negb (v <? OfxVersion200)%N.
Proof.
  intros H. assert (Hk : known_version v) by (apply (known_version_iff v crlf); eauto).
  destruct (N.ltb_spec v OfxVersion200) as [Hv|Hv].
  - apply (written_sgml_read v crlf h (bs "<" ++ body) (low_version v Hk Hv) H). eexists. reflexivity.
  - apply (written_xml v crlf h (bs "<" ++ body) (high_version v Hk Hv) H).
Qed.

Lemma written_sgml_body v crlf h body : write_header v crlf = Some h -> (v < OfxVersion200)%N ->
  read_sgml_headers (h ++ bs "<" ++ body) = Some (v, bs "<" ++ body).
Proof.
  intros H Hv. assert (Hk : known_version v) by (apply (known_version_iff v crlf); eauto).
  apply (written_sgml_read v crlf h (bs "<" ++ body) (low_version v Hk Hv) H). eexists. reflexivity.
Qed.

Lemma written_xml_body v crlf h body : write_header v crlf = Some h -> (OfxVersion200 <= v)%N ->
  read_xml_headers (lex true (h ++ body)) = Some (v, lex true ((if crlf then [cr; nl] else [nl]) ++ body)).
Proof.
  intros H Hv. assert (Hk : known_version v) by (apply (known_version_iff v crlf); eauto).
  apply (written_xml v crlf h body (high_version v Hk Hv) H).
Qed.

Lemma decode_ofx_version e v n r : decode_ofx e v n = Some r -> rs_version r = v.
Proof.
  unfold decode_ofx. intros H.
  repeat match type of H with
  | (match ?x with _ => _ end) = Some _ => destruct x; try discriminate H
  | (bind ?x _) = Some _ => destruct x; [cbn [bind] in H | discriminate H]
  end.
  injection H as <-. reflexivity.
Qed.

Lemma sgml_header_sound s v rest : read_sgml_headers s = Some (v, rest) ->
  exists h, s = h ++ rest /\ sgml_header_for v h /\ (exists r, rest = bs "<" ++ r) /\ length h < 1024.
Proof. intros H. apply read_sgml_iff in H as (h & H1 & H2 & H3 & H4). eauto 8. Qed.

Lemma decoded_sgml_header e s r : looks_like_sgml s -> decode_response e s = Some r ->
  exists h body, s = h ++ bs "<" ++ body /\ sgml_header_for (rs_version r) h /\ length h < 1024.
Proof.
  intros Hs H. apply guess_sgml_iff in Hs. unfold decode_response, read_document in H. rewrite Hs in H.
  destruct (read_sgml_headers s) as [[v rest]|] eqn:E; [|discriminate]. cbn [bind fst snd] in H.
  destruct (read_ofx false ofx_leaf_elements (lex false rest)) as [n|]; [|discriminate]. cbn [bind fst snd] in H.
  apply decode_ofx_version in H as ->. apply sgml_header_sound in E as (h & -> & Hh & [b ->] & Hl). eauto.
Qed.

Lemma sgml_header_complete v h body : sgml_header_for v h -> length h < 1024 ->
  looks_like_sgml (h ++ bs "<" ++ body) /\ read_sgml_headers (h ++ bs "<" ++ body) = Some (v, bs "<" ++ body).
Proof.
  intros Hh Hl. split.
  - apply guess_sgml_iff. destruct (header_text_start v h Hh) as [r ->]. rewrite <- app_assoc. apply guess_sgml.
  - apply read_sgml_iff. exists h. split; [reflexivity|]. split; [exact Hh|]. split; [|exact Hl]. eexists. reflexivity.
Qed.

Lemma sgml_version_unique v v' h : sgml_header_for v h -> sgml_header_for v' h -> v = v'.
Proof.
  intros (version & security & encoding & charset & old & new & H & Hv & _)
         (version' & security' & encoding' & charset' & old' & new' & H' & Hv' & _).
  assert (E : [bs "100"; bs "OFXSGML"; version; security; encoding; charset; bs "NONE"; old; new] =
              [bs "100"; bs "OFXSGML"; version'; security'; encoding'; charset'; bs "NONE"; old'; new'])
    by (exact (header_text_unique _ _ entries_ok _ _ _ H H')).
  assert (version = version') by congruence. subst version'.
  assert (Hall : Forall (fun p => fst (enum_from_string enum_ofxVersion (fst p)) = snd p) sgml_versions)
    by (repeat constructor).
  rewrite Forall_forall in Hall. pose proof (Hall _ Hv) as E1. pose proof (Hall _ Hv') as E2. cbn [fst snd] in E1, E2. congruence.
Qed.

Lemma decoded_xml_header e s r : ~ looks_like_sgml s -> decode_response e s = Some r ->
  exists b1 decl b2 inst rest,
    lex true s = b1 ++ TProc (bs "xml") decl :: b2 ++ TProc (bs "OFX") inst :: rest /\
    Forall blank_token b1 /\ Forall blank_token b2 /\ xml_header_for (rs_version r) inst.
Proof.
  intros Hs H. rewrite <- guess_sgml_iff in Hs. unfold decode_response, read_document in H.
  destruct (guess_xml s); [|congruence].
  destruct (read_xml_headers (lex true s)) as [[v rest]|] eqn:E; [|discriminate]. cbn [bind fst snd] in H.
  destruct (read_ofx true [] rest) as [n|]; [|discriminate]. cbn [bind fst snd] in H.
  apply decode_ofx_version in H as ->. apply read_xml_iff in E as (b1 & decl & b2 & inst & H1 & H2 & H3 & H4).
  exists b1, decl, b2, inst, rest. auto.
Qed.

Lemma attributes_legal l s : attributes_text l s -> forall name value, In (name, value) l -> legal_attribute name value.
Proof.
  induction 1 as [w0 H0|w0 name0 value0 l rest H0 Hl Hv Hr IH]; intros name value; [intros []|].
  intros [E|H]; [|auto]. assert (name0 = name) by congruence. assert (value0 = value) by congruence. subst. exact Hl.
Qed.

Lemma xml_header_content inst v : xml_header_for v inst ->
  exists l, attributes_text l inst /\ In (bs "OFXHEADER", bs "200") l /\
    (exists value, In (bs "VERSION", value) l) /\
    (forall name value, In (name, value) l -> legal_attribute name value) /\
    (exists text, In (text, v) xml_versions).
Proof.
  intros (a & value & b & Hat & (t & Ht & Hv) & Hb & Hin). eexists. split; [exact Hat|]. split; [exact Hin|].
  split; [exists value; apply in_or_app; right; left; reflexivity|].
  split; [apply (attributes_legal _ _ Hat) | eauto].
Qed.

Lemma guess_window s s' : firstn 1024 s = firstn 1024 s' -> guess_xml s = guess_xml s'.
Proof. unfold guess_xml. change window with 1024. intros ->. reflexivity. Qed.

(** ** SGML documents with any header and any of the end tags left out *)

Theorem read_sgml_spelled v h b rest kids :
  sgml_header_for v h -> length h < 1024 ->
  kids <> [] -> Forall (fun k => is_elem k = true) kids ->
  spells simple_element (fun nm => ~ simple_element nm) (Elem (bs "OFX") kids) b ->
  exists n, read_document (h ++ b ++ rest) = Some (v, n) /\ same_tree (Elem (bs "OFX") kids) n.
Proof.
  intros Hh Hl Hk Hel Hs. pose proof (spells_start _ _ _ _ Hs) as [r Hlt].
  destruct (sgml_header_complete v h (r ++ rest) Hh Hl) as [E1 E2]. apply guess_sgml_iff in E1.
  assert (Eb : bs "<" ++ r ++ rest = b ++ rest) by (rewrite Hlt; reflexivity). rewrite Eb in E1, E2.
  unfold read_document. rewrite E1, E2. cbn [bind fst snd].
  destruct (spells_root false ofx_leaf_elements simple_element (fun nm => ~ simple_element nm) (bs "OFX") kids b rest)
    as (ts & n & El & Er & Hn); auto.
  { intros nm Hnm. split; [reflexivity|]. apply simple_element_iff, Hnm. }
  { intros nm Hnm. apply container_iff in Hnm. exact Hnm. }
  exists n. split; [|exact Hn].
  pose proof (read_ofx_start false ofx_leaf_elements [] b rest ts n kids (Forall_nil _) (ex_intro _ r Hlt) El Er Hn) as E.
  cbn [app] in E. rewrite E. reflexivity.
Qed.

Corollary sgml_spellings_decode e v h h' b b' rest rest' kids :
  sgml_header_for v h -> length h < 1024 -> sgml_header_for v h' -> length h' < 1024 ->
  kids <> [] -> Forall (fun k => is_elem k = true) kids ->
  spells simple_element (fun nm => ~ simple_element nm) (Elem (bs "OFX") kids) b ->
  spells simple_element (fun nm => ~ simple_element nm) (Elem (bs "OFX") kids) b' ->
  decode_response e (h ++ b ++ rest) = decode_response e (h' ++ b' ++ rest').
Proof.
  intros H1 H2 H3 H4 Hk He Hs Hs'.
  destruct (read_sgml_spelled v h b rest kids H1 H2 Hk He Hs) as (n & E & Hn).
  destruct (read_sgml_spelled v h' b' rest' kids H3 H4 Hk He Hs') as (n' & E' & Hn').
  unfold decode_response. rewrite E, E'. cbn [bind fst snd].
  rewrite <- (sim_decode_ofx e v _ _ (proj1 same_tree_sim _ _ Hn)).
  rewrite <- (sim_decode_ofx e v _ _ (proj1 same_tree_sim _ _ Hn')). reflexivity.
Qed.

(** ** Requests in several dialects *)

Lemma sets_written_unique (w : Message -> node -> Prop) tbl : (forall m n n', w m n -> w m n' -> n = n') ->
  forall ns ns', sets_written w tbl ns -> sets_written w tbl ns' -> ns = ns'.
Proof.
  intros Hw ns ns' H. revert ns'. induction H as [|set tbl ns H IH|set ms kids tbl ns Hne Hk H IH]; intros ns' H'.
  - inversion H'. reflexivity.
  - inversion H' as [|? ? ? H1|? ? ? ? ? H1]; subst; [apply IH; assumption | contradiction].
  - inversion H' as [|? ? ? H1|? ? kids' ? ns1 H1 H2 H3]; subst; [contradiction|]. f_equal; [|apply IH; exact H3]. f_equal.
    clear - Hw Hk H2. revert kids' H2. induction Hk as [|m n ms kids Hm Hk IH]; intros kids' H2; inversion H2; subst; [reflexivity|].
    f_equal; [eapply Hw; eauto | apply IH; assumption].
Qed.

Lemma request_tree_same q1 q2 t1 q1' t2 q2' : rq_signon q1 = rq_signon q2 -> rq_slots q1 = rq_slots q2 ->
  request_tree q1 = Some (t1, q1') -> request_tree q2 = Some (t2, q2') -> t1 = t2.
Proof.
  intros Hs Hm E1 E2. apply request_tree_spec in E1 as (_ & k1 & s1 & -> & F1 & G1).
  apply request_tree_spec in E2 as (_ & k2 & s2 & -> & F2 & G2). rewrite Hs in F1. rewrite Hm in G1.
  assert (k1 = k2) as -> by congruence. f_equal. f_equal.
  eapply sets_written_unique; [|exact G1 | exact G2]. intros m n n' H H'. unfold encodes in *. congruence.
Qed.

Lemma request_marshal_tree q s q' : request_marshal q = Some (s, q') -> exists t, request_tree q = Some (t, q').
Proof.
  unfold request_marshal. destruct (request_tree q) as [[t q1]|]; [|discriminate]. cbn [bind fst snd].
  intros H. apply Some_inj in H. apply (f_equal snd) in H. cbn [snd] in H. subst. eauto.
Qed.

Theorem request_same_everywhere q1 q2 s1 s2 q1' q2' rest1 rest2 :
  rq_signon q1 = rq_signon q2 -> rq_slots q1 = rq_slots q2 ->
  known_version (rq_version q1) -> known_version (rq_version q2) -> request_clean q1 ->
  request_marshal q1 = Some (s1, q1') -> request_marshal q2 = Some (s2, q2') ->
  exists t n1 n2,
    request_tree q1 = Some (t, q1') /\ request_tree q2 = Some (t, q2') /\
    read_document (s1 ++ rest1) = Some (rq_version q1, n1) /\ same_tree t n1 /\
    read_document (s2 ++ rest2) = Some (rq_version q2, n2) /\ same_tree t n2.
Proof.
  intros Hs Hm Hv1 Hv2 Hc E1 E2.
  destruct (request_marshal_tree _ _ _ E1) as [t1 T1]. destruct (request_marshal_tree _ _ _ E2) as [t2 T2].
  assert (t1 = t2) by (eapply request_tree_same; eauto). subst t2.
  assert (Hc2 : request_clean q2) by (unfold request_clean in *; rewrite <- Hs, <- Hm; exact Hc).
  destruct (request_read_clean q1 t1 q1' s1 rest1 Hv1 Hc T1 E1) as (n1 & R1 & S1).
  destruct (request_read_clean q2 t1 q2' s2 rest2 Hv2 Hc2 T2 E2) as (n2 & R2 & S2).
  exists t1, n1, n2. auto 7.
Qed.

(** ** Markup *)

Lemma written_no_markup raw m : written raw m ->
  forall c, In c [chr 60; chr 62; chr 34; chr 39; chr 9; chr 10; chr 13] -> ~ In c raw.
Proof.
  intros H c Hc. assert (Hb : forall r d, In (r, d) references -> ~ In c r).
  { intros r d Hr Hin. apply (in_map fst) in Hr. cbn [fst] in Hr.
    assert (Hall : forallb (fun r => forallb (fun c => negb (existsb (Ascii.eqb c) r))
        [chr 60; chr 62; chr 34; chr 39; chr 9; chr 10; chr 13]) (map fst references) = true) by (vm_compute; reflexivity).
    rewrite forallb_forall in Hall. specialize (Hall r Hr). rewrite forallb_forall in Hall. specialize (Hall c Hc).
    apply negb_true_iff in Hall. assert (Ht : existsb (Ascii.eqb c) r = true); [|congruence].
    apply existsb_exists. exists c. split; [exact Hin | apply Ascii.eqb_refl]. }
  induction H as [|d raw s Hd H IH|r d raw s Hr H IH]; [intros []| |].
  - intros [->|Hin]; [|exact (IH Hin)]. apply Hd. cbn [map snd references In] in *. intuition.
  - intros Hin. apply in_app_or in Hin as [Hin|Hin]; [exact (Hb r d Hr Hin) | exact (IH Hin)].
Qed.

Lemma written_ampersand raw m : written raw m ->
  forall a r, raw = a ++ bs "&" ++ r -> exists x c r', In (x, c) references /\ bs "&" ++ r = x ++ r'.
Proof.
  assert (Hshape : forall x c, In (x, c) references -> exists y, x = "&"%char :: y /\ ~ In "&"%char y).
  { intros x c Hx. cbn [references In] in Hx.
    repeat (destruct Hx as [E|Hx]; [apply (f_equal fst) in E; cbn [fst] in E; subst x; eexists; split; [reflexivity|];
      cbn; intros Hin; decompose [or] Hin; try discriminate; contradiction|]). contradiction. }
  induction 1 as [|d raw s Hd H IH|x d raw s Hx H IH]; intros a r E.
  - destruct a; discriminate.
  - destruct a as [|y a].
    + exfalso. apply Hd. cbn [app] in E. assert (d = "&"%char) by (cbn in E; congruence). subst d.
      cbn [map snd references In]. right. right. left. reflexivity.
    + cbn [app] in E. eapply IH. assert (E' : raw = a ++ bs "&" ++ r) by congruence. exact E'.
  - destruct (Hshape x d Hx) as (y & -> & Hy). destruct a as [|z a].
    + exists ("&"%char :: y), d, raw. split; [exact Hx|]. cbn [app] in E. symmetry. exact E.
    + cbn [app] in E. assert (E' : y ++ raw = a ++ bs "&" ++ r) by congruence. clear E.
      assert (Hlen : length y <= length a).
      { destruct (Nat.le_gt_cases (length y) (length a)) as [Hl|Hl]; [exact Hl|]. exfalso. apply Hy.
        assert (En : nth_error (y ++ raw) (length a) = Some "&"%char).
        { rewrite E', nth_error_app2 by lia. rewrite Nat.sub_diag. reflexivity. }
        rewrite nth_error_app1 in En by exact Hl. eapply nth_error_In; eauto. }
      assert (Ea : exists a', a = y ++ a').
      { exists (skipn (length y) a). rewrite <- (firstn_skipn (length y) a) at 1. f_equal.
        apply (f_equal (firstn (length y))) in E'. rewrite !firstn_app, firstn_all, Nat.sub_diag in E'.
        replace (length y - length a) with 0 in E' by lia. cbn [firstn] in E'. rewrite !app_nil_r in E'. symmetry. exact E'. }
      destruct Ea as [a' ->]. rewrite <- app_assoc in E'. apply app_inv_head in E'. eapply IH. exact E'.
Qed.

(** The text between the tags of an element is read as the text that was meant. *)
Lemma field_read strict nm s rest : plain_name nm -> s <> [] ->
  exists m, repaired s m /\
    lex strict (start_tag nm ++ escape s ++ end_tag nm ++ rest) =
    TStart [] nm :: TChar m :: TEnd [] nm :: lex strict rest.
Proof.
  intros Hn Hs. destruct (escape_repaired s) as (m & Hm & Hr). exists m. split; [exact Hr|].
  assert (Hraw : escape s ++ [] <> []).
  { rewrite app_nil_r. intros E. apply Hs. apply (repaired_empty _ _ Hr). apply (written_nil_iff _ _ Hm). exact E. }
  set (doc := start_tag nm ++ escape s ++ end_tag nm ++ rest).
  rewrite <- (lex_fuel_enough (S (S (S (length doc))))) by lia.
  unfold doc at 2. rewrite lex_start by exact Hn. f_equal.
  destruct (lex_text (S (length doc)) strict (escape s) m [] (bs "/" ++ nm ++ bs ">" ++ rest) Hm (repaired_xml _ _ Hr) (Forall_nil _) Hraw)
    as (w' & Hw' & Hn' & E). assert (w' = []) as -> by (apply Hn'; reflexivity). rewrite app_nil_r in E.
  assert (Ed : "<"%char :: bs "/" ++ nm ++ bs ">" ++ rest = end_tag nm ++ rest)
    by (unfold end_tag; rewrite <- !app_assoc; reflexivity).
  cbn [app] in E. rewrite Ed in E. rewrite E. f_equal. rewrite lex_end by exact Hn. f_equal.
  apply lex_fuel_enough. unfold doc. rewrite !app_length. lia.
Qed.

(** ** Versions that are not valid *)

Lemma unknown_header v crlf : ~ known_version v -> header_or_nothing v crlf = [].
Proof.
  intros H. unfold header_or_nothing. destruct (write_header v crlf) eqn:E; [|reflexivity].
  exfalso. apply H. apply (known_version_iff v crlf). eauto.
Qed.

Lemma printed_start st nm k : exists r, print st true 0 (Elem nm k) = bs "<" ++ nm ++ bs ">" ++ r.
Proof.
  cbn [print]. assert (E : line_start st true 0 = []) by (unfold line_start; destruct (st_indent st); reflexivity).
  rewrite E. eexists. reflexivity.
Qed.

Lemma headerless e r : decode_response e (bs "<OFX>" ++ r) = None.
Proof.
  unfold decode_response, read_document. destruct (guess_xml (bs "<OFX>" ++ r)) eqn:Eg.
  - assert (El : exists ts, lex true (bs "<OFX>" ++ r) = TStart [] (bs "OFX") :: ts).
    { rewrite <- (lex_fuel_enough (S (length (bs "<OFX>" ++ r)))) by lia.
      change (bs "<OFX>" ++ r) with (start_tag (bs "OFX") ++ r) at 2. rewrite lex_start by (apply plainb_plain; reflexivity). eexists. reflexivity. }
    destruct El as [ts ->]. reflexivity.
  - unfold read_sgml_headers. change (index_of (bs "<") (bs "<OFX>" ++ r)) with (Some 0). reflexivity.
Qed.

(** ** Containers and simple elements *)

Lemma document_parts leaf nest n : document leaf nest n -> forall x, part_of x n -> is_elem x = true -> document leaf nest x.
Proof.
  intros Hd x Hp. revert Hd. induction Hp as [n|n k nm kids Hin Hp IH]; intros Hd Hx; [exact Hd|].
  apply IH; [|exact Hx]. inversion Hd as [nm' s Hn Hs E|nm' kids' Hn Hne Hk]; subst.
  - destruct s; [destruct Hin|]. destruct Hin as [<-|[]]. inversion Hp; subst. discriminate.
  - rewrite Forall_forall in Hk. exact (Hk k Hin).
Qed.

Lemma document_nests leaf nest nm kids : document leaf nest (Elem nm kids) -> existsb is_elem kids = true -> nest nm.
Proof.
  intros H He. inversion H as [nm' s Hn Hs E|nm' kids' Hn Hne Hk]; subst; [|exact Hne].
  rewrite text_kids_no_elem in He. discriminate.
Qed.

Lemma document_leaf leaf nest nm s : document leaf nest (Elem nm [Text s]) -> leaf nm s.
Proof.
  intros H. remember (Elem nm [Text s]) as n eqn:En. destruct H as [nm' s' Hn Hs|nm' kids' Hn Hne Hk].
  - destruct s' as [|c s']; cbn [text_kids] in En; [discriminate|]. injection En as E1 E2. rewrite E1, E2 in Hs. exact Hs.
  - injection En as -> ->. apply Forall_inv in Hk. apply document_elem in Hk. discriminate.
Qed.

Lemma root_document leaf k : docs leaf k -> document leaf container (Elem (bs "OFX") k).
Proof. intros H. apply document_elems; [apply plainb_plain; reflexivity | vm_compute; reflexivity | exact H]. Qed.

Lemma request_containers q t q' nm kids : request_tree q = Some (t, q') ->
  part_of (Elem nm kids) t -> existsb is_elem kids = true -> ~ simple_element nm.
Proof.
  intros E Hp He. destruct (request_doc_any q t q' E) as (k & -> & _ & Hd).
  apply container_iff. eapply document_nests; [|exact He]. eapply document_parts; [apply root_document, Hd | exact Hp | reflexivity].
Qed.

Lemma request_leaves q t q' nm s : request_tree q = Some (t, q') ->
  part_of (Elem nm [Text s]) t -> simple_element nm \/ In nm ofx2_options.
Proof.
  intros E Hp. destruct (request_doc_any q t q' E) as (k & -> & _ & Hd).
  apply (document_leaf (fun nm _ => simple_element nm \/ In nm ofx2_options) container nm s).
  eapply document_parts; [apply root_document, Hd | exact Hp | reflexivity].
Qed.

Lemma response_containers r t nm kids : response_named r -> response_tree r = Some t ->
  part_of (Elem nm kids) t -> existsb is_elem kids = true -> ~ simple_element nm.
Proof.
  intros Hr E Hp He. destruct (response_doc_any r t Hr E) as (k & -> & _ & Hd).
  apply container_iff. eapply document_nests; [|exact He]. eapply document_parts; [apply root_document, Hd | exact Hp | reflexivity].
Qed.

(** ** Marshal for a version that is not valid *)

Lemma request_unknown q s q' : ~ known_version (rq_version q) -> request_marshal q = Some (s, q') ->
  exists r, s = bs "<OFX>" ++ r.
Proof.
  intros Hv E. destruct (request_marshal_tree _ _ _ E) as [t T]. unfold request_marshal in E. rewrite T in E.
  cbn [bind fst snd] in E. rewrite (unknown_header _ _ Hv) in E.
  destruct (request_doc_any q t q' T) as (k & -> & _ & _).
  destruct (printed_start (request_style q) (bs "OFX") k) as [r Er]. rewrite Er in E.
  apply Some_inj in E. apply (f_equal fst) in E. cbn [fst] in E. subst s. exists r. reflexivity.
Qed.

Lemma response_unknown r s : ~ known_version (rs_version r) -> response_marshal r = Some s ->
  exists x, s = bs "<OFX>" ++ x.
Proof.
  intros Hv E. unfold response_marshal in E. destruct (response_tree r) as [t|] eqn:T; [|discriminate].
  cbn [bind] in E. rewrite (unknown_header _ _ Hv) in E.
  apply response_tree_spec in T as (k & sets & -> & _).
  match type of E with context [print ?st true 0 (Elem ?nm ?k)] => destruct (printed_start st nm k) as [x Er] end.
  rewrite Er in E. apply Some_inj in E. subst s. exists x. reflexivity.
Qed.
