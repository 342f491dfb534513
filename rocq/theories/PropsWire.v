(** C27-C32, C51: documents as bytes. *)
From Coq Require Import QArith Lia Bool ZifyBool ZifyNat ZifyN.
From Verif Require Import GoStr SpecStr GoTime Types Enums EnumTables Records Common Messages Codec SpecCodec Schema Document
  SpecDocument SpecXml Utf8 Xml XmlFacts SpellFacts Leaves SpecWire FormFacts Headers SpecHeader HeaderFacts WrittenHeaderFacts
  Wire WireFacts Samples.
Close Scope Q_scope.

(** ** Samples *)

Definition clean_textb (l : leafty) : leafval l -> bool :=
  match l return leafval l -> bool with
  | LString | LUID | LCurr => fun s => asciib s
  | LDate => fun t => asciib (t_zone t)
  | _ => fun _ => true
  end.

Lemma clean_textb_ok l v : clean_textb l v = true -> clean_text l v.
Proof.
  destruct l; cbn [clean_textb clean_text]; intros H; try exact I; apply ascii_xml, asciib_ascii, H.
Qed.

Lemma sample_clean t v : everyb clean_textb t v = true -> every clean_text t v.
Proof. apply (everyb_every _ _ clean_textb_ok). Qed.

Lemma sample_set_name stem : plainb stem && negb (fold_member stem ofx_leaf_elements) &&
  negb (fold_member (stem ++ bs "V1") ofx_leaf_elements) = true -> set_element_name (stem ++ bs "V1").
Proof.
  rewrite !andb_true_iff, !negb_true_iff. intros [[H1 H2] H3]. exists stem. split; [reflexivity|].
  split; [apply plainb_plain, H1|]. split; apply container_iff; assumption.
Qed.

Lemma sample_response_clean : response_clean sample_response.
Proof.
  split; [apply sample_clean; vm_compute; reflexivity|].
  assert (H : forall m, In m (flat_map snd (response_sets (rs_slots sample_response))) -> message_clean m).
  { intros m Hm. cbn [response_sets rs_slots sample_response flat_map snd app sl_signup sl_bank sl_creditcard sl_loan
      sl_invstmt sl_interxfer sl_wirexfer sl_billpay sl_email sl_seclist sl_presdir sl_presdlv sl_prof sl_image] in Hm.
    repeat destruct Hm as [<-|Hm]; [ .. | destruct Hm]; (split; [apply sample_clean; vm_compute; reflexivity|]); try exact I.
    cbn [message_named]. unfold sample_profile. cbn [ProfileResponse_MessageSetList]. unfold sample_sets.
    apply Forall_cons; [|apply Forall_cons; [|apply Forall_nil]]; cbn [MessageSet_Name].
    - change (set_element_name (bs "BANKMSGSET" ++ bs "V1")). apply sample_set_name. vm_compute. reflexivity.
    - change (set_element_name (bs "SIGNONMSGSET" ++ bs "V1")). apply sample_set_name. vm_compute. reflexivity. }
  intros set ms m Hs Hm. apply H. apply in_flat_map. exists (set, ms). auto.
Qed.

Lemma sample_request_clean : request_clean sample_request.
Proof.
  split; [apply sample_clean; vm_compute; reflexivity|].
  assert (H : forall m, In m (flat_map snd (request_sets (rq_slots sample_request))) -> message_every clean_text m).
  { intros m Hm. cbn [request_sets rq_slots sample_request flat_map snd app sl_signup sl_bank sl_creditcard sl_loan
      sl_invstmt sl_interxfer sl_wirexfer sl_billpay sl_email sl_seclist sl_presdir sl_presdlv sl_prof sl_image] in Hm.
    repeat destruct Hm as [<-|Hm]; [ .. | destruct Hm]; apply sample_clean; vm_compute; reflexivity. }
  intros set ms m Hs Hm. apply H. apply in_flat_map. exists (set, ms). auto.
Qed.

(** ** Round trip *)

(** C27: DecodeResponse of what Marshal writes for a response is the response,
    whatever follows it in the input. *)
Theorem C27_response_round_trip : forall e r s rest,
  response_representable e r -> response_clean r -> known_version (rs_version r) ->
  response_marshal r = Some s -> decode_response e (s ++ rest) = Some r.
Proof. exact response_round_trip. Qed.
Print Assumptions C27_response_round_trip.

Example C27_case :
  response_representable sample_env sample_response /\ response_clean sample_response /\
  known_version (rs_version sample_response) /\ response_marshal sample_response <> None.
Proof.
  split; [exact sample_response_representable|]. split; [exact sample_response_clean|].
  split; [exists (bs "103"); cbn; auto | vm_compute; discriminate].
Qed.

(** C28: two requests with the same sign-on and messages, whatever their versions,
    indentation and line ends, are read as the same tree. *)
Theorem C28_request_dialects : forall q1 q2 s1 s2 q1' q2' rest1 rest2,
  rq_signon q1 = rq_signon q2 -> rq_slots q1 = rq_slots q2 ->
  known_version (rq_version q1) -> known_version (rq_version q2) -> request_clean q1 ->
  request_marshal q1 = Some (s1, q1') -> request_marshal q2 = Some (s2, q2') ->
  exists t n1 n2,
    request_tree q1 = Some (t, q1') /\ request_tree q2 = Some (t, q2') /\
    read_document (s1 ++ rest1) = Some (rq_version q1, n1) /\ same_tree t n1 /\
    read_document (s2 ++ rest2) = Some (rq_version q2, n2) /\ same_tree t n2.
Proof. exact request_same_everywhere. Qed.
Print Assumptions C28_request_dialects.

Definition sample_sgml_request : Request :=
  mkRequest (bs "https://example.com/ofx") OfxVersion102 (rq_signon sample_request) (rq_slots sample_request) false true.

Example C28_case :
  request_clean sample_request /\ request_marshal sample_request <> None /\ request_marshal sample_sgml_request <> None /\
  option_map fst (request_marshal sample_request) <> option_map fst (request_marshal sample_sgml_request) /\
  known_version (rq_version sample_request) /\ known_version (rq_version sample_sgml_request).
Proof.
  split; [exact sample_request_clean|]. split; [vm_compute; discriminate|]. split; [vm_compute; discriminate|].
  split; [vm_compute; discriminate|]. split; [exists (bs "203") | exists (bs "102")]; cbn; auto 12.
Qed.

(** C29: whatever the bytes of a field are, they are written without markup, and
    they are read as the text they stand for: themselves if XML can carry it. *)
Theorem C29_no_markup : forall s c,
  In c [chr 60; chr 62; chr 34; chr 39; chr 9; chr 10; chr 13] -> ~ In c (escape s).
Proof. intros s c Hc. destruct (escape_repaired s) as (m & Hm & _). exact (written_no_markup _ _ Hm c Hc). Qed.
Print Assumptions C29_no_markup.

Theorem C29_ampersands : forall s a r, escape s = a ++ bs "&" ++ r ->
  exists x c r', In (x, c) references /\ bs "&" ++ r = x ++ r'.
Proof. intros s a r E. destruct (escape_repaired s) as (m & Hm & _). exact (written_ampersand _ _ Hm a r E). Qed.
Print Assumptions C29_ampersands.

Theorem C29_field : forall strict nm s rest, plain_name nm -> s <> [] ->
  exists m, repaired s m /\ (xml_string s -> m = s) /\
    lex strict (start_tag nm ++ escape s ++ end_tag nm ++ rest) =
    TStart [] nm :: TChar m :: TEnd [] nm :: lex strict rest.
Proof.
  intros strict nm s rest Hn Hs. destruct (field_read strict nm s rest Hn Hs) as (m & Hm & E).
  exists m. split; [exact Hm|]. split; [intros H; exact (repaired_same s m H Hm) | exact E].
Qed.
Print Assumptions C29_field.

(** Whole documents, whatever the fields hold: the reader sees the tree that was
    meant, with the text repaired. *)
Theorem C29_request : forall q t q' s rest, known_version (rq_version q) ->
  request_tree q = Some (t, q') -> request_marshal q = Some (s, q') ->
  exists t' n, repaired_tree t t' /\ read_document (s ++ rest) = Some (rq_version q, n) /\ same_tree t' n.
Proof. exact request_read. Qed.
Print Assumptions C29_request.

Theorem C29_response : forall r t s rest, known_version (rs_version r) -> response_named r ->
  response_tree r = Some t -> response_marshal r = Some s ->
  exists t' n, repaired_tree t t' /\ read_document (s ++ rest) = Some (rs_version r, n) /\ same_tree t' n.
Proof. exact response_read. Qed.
Print Assumptions C29_response.

Example C29_case :
  escape (bs "</MEMO><STMTTRN>&lt;" ++ [chr 34]) = bs "&lt;/MEMO&gt;&lt;STMTTRN&gt;&amp;lt;&#34;" /\
  escape [chr 0; chr 200; chr 200; chr 168] = replacement ++ replacement ++ [chr 200; chr 168] /\
  repaired [chr 0; chr 200; chr 200; chr 168] (replacement ++ replacement ++ [chr 200; chr 168]) /\
  xml_string (bs "O'Hara & <Sons>" ++ [chr 195; chr 169]).
Proof.
  split; [vm_compute; reflexivity|]. split; [vm_compute; reflexivity|]. split.
  - destruct (escape_repaired [chr 0; chr 200; chr 200; chr 168]) as (m & Hm & Hr).
    change (escape [chr 0; chr 200; chr 200; chr 168]) with (replacement ++ replacement ++ [chr 200; chr 168]) in Hm.
    assert (E : m = replacement ++ replacement ++ [chr 200; chr 168]); [|rewrite <- E; exact Hr].
    clear Hr. cbv in Hm.
    repeat match goal with
    | H : written (_ :: _) _ |- _ => inversion H; subst; clear H
    | H : written [] _ |- _ => inversion H; subst; clear H
    | H : _ ++ _ = _ :: _ |- _ => idtac
    end.
    all: try reflexivity.
    all: exfalso; cbn [references In] in *; repeat match goal with H : _ \/ _ |- _ => destruct H as [H|H] end;
      try contradiction; repeat match goal with H : (_, _) = (_, _) |- _ => injection H as <- <- end; discriminate.
  - apply xml_string_app; [apply ascii_xml, asciib_ascii; vm_compute; reflexivity|].
    exists [233%N]. split; [|vm_compute; reflexivity]. apply Forall_cons; [unfold xml_code; lia | apply Forall_nil].
Qed.

(** C30: an element that holds elements is never one of the simple elements. *)
Theorem C30_request_containers : forall q t q' nm kids, request_tree q = Some (t, q') ->
  part_of (Elem nm kids) t -> existsb is_elem kids = true -> ~ simple_element nm.
Proof. exact request_containers. Qed.
Print Assumptions C30_request_containers.

Theorem C30_response_containers : forall r t nm kids, response_named r -> response_tree r = Some t ->
  part_of (Elem nm kids) t -> existsb is_elem kids = true -> ~ simple_element nm.
Proof. exact response_containers. Qed.
Print Assumptions C30_response_containers.

(** In requests the elements that hold text are simple elements, except for the
    options that came with version 2 of OFX. *)
Theorem C30_request_leaves : forall q t q' nm s, request_tree q = Some (t, q') ->
  part_of (Elem nm [Text s]) t -> simple_element nm \/ In nm ofx2_options.
Proof. exact request_leaves. Qed.
Print Assumptions C30_request_leaves.

Example C30_case :
  (exists t q', request_tree sample_request = Some (t, q') /\
     part_of (Elem (bs "BANKID") [Text (bs "318398732")]) t) /\
  simple_element (bs "BANKID") /\ ~ simple_element (bs "STMTRQ") /\ ~ simple_element (bs "SUBACCTFUND").
Proof.
  split.
  - assert (H : option_map (fun x => match fst x with Elem _ (_ :: Elem _ [Elem _ (_ :: Elem _ (Elem _ (b :: _) :: _) :: _)] :: _) => Some b | _ => None end)
      (request_tree sample_request) = Some (Some (Elem (bs "BANKID") [Text (bs "318398732")]))) by (vm_compute; reflexivity).
    destruct (request_tree sample_request) as [[t q']|]; [|discriminate]. exists t, q'. split; [reflexivity|].
    cbn [option_map fst] in H. apply Some_inj in H.
    destruct t as [nm [|x1 [|[n2 [|[n3 [|x3 [|[n4 [|[n5 [|b k5]| |] k4]| |] k3]]| |] [|y k2]]| |] k1]]| |]; try discriminate.
    apply Some_inj in H. subst b.
    eapply part_below; [right; left; reflexivity|]. eapply part_below; [left; reflexivity|].
    eapply part_below; [right; left; reflexivity|]. eapply part_below; [left; reflexivity|].
    eapply part_below; [left; reflexivity|]. apply part_self.
  - split; [apply simple_element_iff; vm_compute; reflexivity|].
    split; apply container_iff; vm_compute; reflexivity.
Qed.

(** C31: whichever end tags of simple elements are left out, and whatever white
    space is between the elements, an SGML document is read as the same tree. *)
Theorem C31_end_tags : forall v h b rest kids,
  sgml_header_for v h -> length h < 1024 ->
  kids <> [] -> Forall (fun k => is_elem k = true) kids ->
  spells simple_element (fun nm => ~ simple_element nm) (Elem (bs "OFX") kids) b ->
  exists n, read_document (h ++ b ++ rest) = Some (v, n) /\ same_tree (Elem (bs "OFX") kids) n.
Proof. exact read_sgml_spelled. Qed.
Print Assumptions C31_end_tags.

Theorem C31_decode : forall e v h h' b b' rest rest' kids,
  sgml_header_for v h -> length h < 1024 -> sgml_header_for v h' -> length h' < 1024 ->
  kids <> [] -> Forall (fun k => is_elem k = true) kids ->
  spells simple_element (fun nm => ~ simple_element nm) (Elem (bs "OFX") kids) b ->
  spells simple_element (fun nm => ~ simple_element nm) (Elem (bs "OFX") kids) b' ->
  decode_response e (h ++ b ++ rest) = decode_response e (h' ++ b' ++ rest').
Proof. exact sgml_spellings_decode. Qed.
Print Assumptions C31_decode.

(** Two spellings of a tree, with all and with no end tags of simple elements. *)
Example C31_case :
  let t := Elem (bs "OFX") [Elem (bs "STATUS") [Elem (bs "CODE") [Text (bs "0")]; Elem (bs "SEVERITY") [Text (bs "INFO")]]] in
  spells simple_element (fun nm => ~ simple_element nm) t
    (bs "<OFX><STATUS><CODE>0</CODE><SEVERITY>INFO</SEVERITY></STATUS></OFX>") /\
  spells simple_element (fun nm => ~ simple_element nm) t
    (bs "<OFX> <STATUS><CODE>0<SEVERITY>INFO </STATUS></OFX>").
Proof.
  assert (Hp : forall nm, plainb nm = true -> plain_name nm) by exact plainb_plain.
  assert (Hc : forall nm, fold_member nm ofx_leaf_elements = false -> ~ simple_element nm) by (intros nm; apply container_iff).
  assert (Hs : forall nm, fold_member nm ofx_leaf_elements = true -> simple_element nm) by (intros nm; apply simple_element_iff).
  assert (Hw : forall s, xml_string s -> escape s = s -> written s s).
  { intros s H E. pose proof (escape_written s H) as W. rewrite E in W. exact W. }
  assert (X1 : xml_string (bs "0")) by (apply ascii_xml, asciib_ascii; reflexivity).
  assert (X2 : xml_string (bs "INFO")) by (apply ascii_xml, asciib_ascii; reflexivity).
  assert (W1 : written (bs "0") (bs "0")) by (apply Hw; [exact X1 | reflexivity]).
  assert (W2 : written (bs "INFO") (bs "INFO")) by (apply Hw; [exact X2 | reflexivity]).
  assert (Sp : xml_ws (bs " ")) by (apply Forall_cons; [left; reflexivity | apply Forall_nil]).
  assert (S0 : xml_ws []) by apply Forall_nil.
  cbv zeta. split.
  - apply (spells_elems _ _ (bs "OFX") _ [] (bs "<STATUS><CODE>0</CODE><SEVERITY>INFO</SEVERITY></STATUS>")); [apply Hp; reflexivity | apply Hc; vm_compute; reflexivity | exact S0|].
    apply (spells_more _ _ _ (bs "<STATUS><CODE>0</CODE><SEVERITY>INFO</SEVERITY></STATUS>") [] [] []); [|exact S0 | constructor].
    apply (spells_elems _ _ (bs "STATUS") _ [] (bs "<CODE>0</CODE><SEVERITY>INFO</SEVERITY>")); [apply Hp; reflexivity | apply Hc; vm_compute; reflexivity | exact S0|].
    apply (spells_more _ _ _ (bs "<CODE>0</CODE>") [] _ (bs "<SEVERITY>INFO</SEVERITY>")); [|exact S0|].
    { apply (spells_text _ _ (bs "CODE") (bs "0") (bs "0")); auto. }
    apply (spells_more _ _ _ (bs "<SEVERITY>INFO</SEVERITY>") [] [] []); [|exact S0 | constructor].
    apply (spells_text _ _ (bs "SEVERITY") (bs "INFO") (bs "INFO")); auto.
  - apply (spells_elems _ _ (bs "OFX") _ (bs " ") (bs "<STATUS><CODE>0<SEVERITY>INFO </STATUS>")); [apply Hp; reflexivity | apply Hc; vm_compute; reflexivity | exact Sp|].
    apply (spells_more _ _ _ (bs "<STATUS><CODE>0<SEVERITY>INFO </STATUS>") [] [] []); [|exact S0 | constructor].
    apply (spells_elems _ _ (bs "STATUS") _ [] (bs "<CODE>0<SEVERITY>INFO ")); [apply Hp; reflexivity | apply Hc; vm_compute; reflexivity | exact S0|].
    apply (spells_more _ _ _ (bs "<CODE>0") [] _ (bs "<SEVERITY>INFO ")); [|exact S0|].
    { apply (spells_open _ _ (bs "CODE") (bs "0") (bs "0")); auto; apply Hs; vm_compute; reflexivity. }
    apply (spells_more _ _ _ (bs "<SEVERITY>INFO") (bs " ") [] []); [|exact Sp | constructor].
    apply (spells_open _ _ (bs "SEVERITY") (bs "INFO") (bs "INFO")); auto; apply Hs; vm_compute; reflexivity.
Qed.

(** C32: ParseResponse returns the response together with the verdict on it, and
    nothing but an error if there is no response. *)
Theorem C32_parse : forall e s,
  (forall r, decode_response e s = Some r -> parse_response e s = (Some r, response_valid r)) /\
  (decode_response e s = None -> fst (parse_response e s) = None /\ snd (parse_response e s) <> None).
Proof.
  intros e s. unfold parse_response. split.
  - intros r ->. reflexivity.
  - intros ->. split; [reflexivity | discriminate].
Qed.
Print Assumptions C32_parse.

(** So a response that is written and read keeps its content even if it is not
    valid. *)
Theorem C32_parse_marshalled : forall e r s,
  response_representable e r -> response_clean r -> known_version (rs_version r) ->
  response_marshal r = Some s -> parse_response e s = (Some r, response_valid r).
Proof.
  intros e r s H1 H2 H3 H4. apply C32_parse. rewrite <- (app_nil_r s). exact (response_round_trip e r s [] H1 H2 H3 H4).
Qed.
Print Assumptions C32_parse_marshalled.

(** C51 does not hold: the error of writeHeader is dropped. *)
Definition versionless_request : Request :=
  mkRequest (bs "https://example.com/ofx") 0 (rq_signon sample_request) (rq_slots sample_request) false false.

Theorem C51_refuted : exists q s q', ~ known_version (rq_version q) /\ request_marshal q = Some (s, q').
Proof.
  exists versionless_request. assert (H : request_marshal versionless_request <> None) by (vm_compute; discriminate).
  destruct (request_marshal versionless_request) as [[s q']|]; [|contradiction]. exists s, q'. split; [|reflexivity].
  intros Hk. apply known_cases in Hk. unfold OfxVersion102, OfxVersion160, OfxVersion200, OfxVersion220 in Hk. cbn in Hk. lia.
Qed.
Print Assumptions C51_refuted.

(** What does hold: such a document has no header, and the library does not read
    it. *)
Theorem C51_request_partial : forall q s q', ~ known_version (rq_version q) -> request_marshal q = Some (s, q') ->
  (exists r, s = bs "<OFX>" ++ r) /\ forall e rest, decode_response e (s ++ rest) = None.
Proof.
  intros q s q' Hv H. destruct (request_unknown q s q' Hv H) as [r ->]. split; [eauto|].
  intros e rest. rewrite <- app_assoc. apply headerless.
Qed.
Print Assumptions C51_request_partial.

Theorem C51_response_partial : forall r s, ~ known_version (rs_version r) -> response_marshal r = Some s ->
  (exists x, s = bs "<OFX>" ++ x) /\ forall e rest, decode_response e (s ++ rest) = None.
Proof.
  intros r s Hv H. destruct (response_unknown r s Hv H) as [x ->]. split; [eauto|].
  intros e rest. rewrite <- app_assoc. apply headerless.
Qed.
Print Assumptions C51_response_partial.
