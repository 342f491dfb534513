(** C64-C67: truncated, decoded, extended and rearranged documents, and dates
    that drift. *)
From Coq Require Import QArith Lia Bool ZArith String.
From Coq Require Import List.
From Verif Require Import GoStr SpecStr GoTime SpecDate Types Enums EnumTables Records Common Messages Codec SpecCodec Schema Document
  SpecDocument SpecXml Xml XmlFacts SpellFacts Leaves SpecWire FormFacts Headers SpecHeader HeaderFacts
  Wire WireFacts ExtendFacts SpecDecode ClosureFacts ClosureDocs AlikeFacts AlikeDocs DriftFacts Samples PropsWire.
Close Scope Q_scope.
Close Scope string_scope.
Open Scope list_scope.

(** ** Truncated documents *)

(** C64: no proper prefix of a response that Marshal wrote is a response. *)
Theorem C64_truncated_response : forall e r s p x, response_named r -> response_marshal r = Some s ->
  s = p ++ x -> x <> [] -> decode_response e p = None.
Proof. exact response_prefix. Qed.
Print Assumptions C64_truncated_response.

(** The same for requests: no proper prefix of a request is a complete document. *)
Theorem C64_truncated_request : forall q s q' p x, request_marshal q = Some (s, q') -> known_version (rq_version q) ->
  s = p ++ x -> x <> [] -> read_document p = None.
Proof. exact request_prefix. Qed.
Print Assumptions C64_truncated_request.

(** More generally, once the bytes read so far are a complete response, more bytes
    change neither the response nor the error, whoever wrote them. *)
Theorem C64_extended : forall e p r err rest,
  parse_response e p = (Some r, err) -> parse_response e (p ++ rest) = (Some r, err).
Proof. exact parse_ext. Qed.
Print Assumptions C64_extended.

Lemma sample_response_named : response_named sample_response.
Proof. intros set ms m Hs Hm. destruct sample_response_clean as [_ H]. exact (proj2 (H set ms m Hs Hm)). Qed.

Definition decodes (e : env) (s : str) : bool := match decode_response e s with Some _ => true | None => false end.

Example C64_case : response_named sample_response /\ exists s p x,
  response_marshal sample_response = Some s /\ s = p ++ x /\ x = bs ">" /\ decodes sample_env s = true /\ decodes sample_env p = false.
Proof.
  split; [exact sample_response_named|].
  destruct (response_marshal sample_response) as [s|] eqn:E; [|exfalso; revert E; vm_compute; discriminate].
  exists s, (removelast s), (bs ">").
  assert (Hs : s = removelast s ++ bs ">").
  { assert (E2 : Some s = response_marshal sample_response) by (symmetry; exact E). revert E2. generalize s. clear. intros s E. vm_compute in E. injection E as ->. vm_compute. reflexivity. }
  split; [reflexivity|]. split; [exact Hs|]. split; [reflexivity|]. unfold decodes. split.
  - rewrite <- (app_nil_r s).
    rewrite (response_round_trip sample_env sample_response s [] sample_response_representable sample_response_clean); [reflexivity | exists (bs "103"); cbn; auto | exact E].
  - rewrite (C64_truncated_response sample_env sample_response s _ (bs ">") sample_response_named E Hs); [reflexivity | discriminate].
Qed.

(** ** Decoded responses *)

(** C65: every field of every response that has been read is well formed, its
    version is a version, and every message is in the set it belongs in. *)
Theorem C65_fields : forall e s r, env_currency e (bs "XXX") = true -> decode_response e s = Some r ->
  response_every (read_field e) r /\ known_version (rs_version r) /\
  forall set ms m, In (set, ms) (response_sets (rs_slots r)) -> In m ms -> belongs_in m = set /\ loanless m.
Proof. exact decoded_fields. Qed.
Print Assumptions C65_fields.

(** A valid response that has been read can be written, and is then read again as
    the same, provided its amounts and dates have an exact text form. *)
Theorem C65_rewritten : forall e s r, env_currency e (bs "XXX") = true ->
  parse_response e s = (Some r, None) -> response_every (exact_field e) r -> response_named r ->
  exists b, response_marshal r = Some b /\ forall rest, parse_response e (b ++ rest) = (Some r, None).
Proof. exact decoded_canonical. Qed.
Print Assumptions C65_rewritten.

Definition exactb (l : leafty) : leafval l -> bool :=
  match l return leafval l -> bool with
  | LAmount => leaf_okb LAmount
  | LDate => leaf_okb LDate
  | _ => fun _ => true
  end.

Lemma exactb_ok l v : exactb l v = true -> exact_field sample_env l v.
Proof.
  destruct l; cbn [exactb exact_field]; intros H; try exact I.
  - pose proof (leaf_okb_ok LAmount v H) as [_ K]. exact K.
  - exact (leaf_okb_ok LDate v H).
Qed.

Lemma sample_response_exact : response_every (exact_field sample_env) sample_response.
Proof.
  split; [apply (everyb_every _ _ exactb_ok); vm_compute; reflexivity|].
  assert (H : forall m, In m (flat_map snd (response_sets (rs_slots sample_response))) -> message_every (exact_field sample_env) m).
  { intros m Hm. cbn [response_sets rs_slots sample_response flat_map snd app sl_signup sl_bank sl_creditcard sl_loan
      sl_invstmt sl_interxfer sl_wirexfer sl_billpay sl_email sl_seclist sl_presdir sl_presdlv sl_prof sl_image] in Hm.
    repeat destruct Hm as [<-|Hm]; [ .. | destruct Hm]; apply (everyb_every _ _ exactb_ok); vm_compute; reflexivity. }
  intros set ms m Hs Hm. apply H. apply in_flat_map. exists (set, ms). auto.
Qed.

Example C65_case : env_currency sample_env (bs "XXX") = true /\ response_every (exact_field sample_env) sample_response /\
  response_named sample_response /\ exists s, parse_response sample_env s = (Some sample_response, None).
Proof.
  split; [reflexivity|]. split; [exact sample_response_exact|]. split; [exact sample_response_named|].
  destruct (response_marshal sample_response) as [s|] eqn:E; [|exfalso; revert E; vm_compute; discriminate].
  exists (s ++ []). unfold parse_response.
  rewrite (response_round_trip sample_env sample_response s [] sample_response_representable sample_response_clean);
    [|exists (bs "103"); cbn; auto | exact E].
  vm_compute. reflexivity.
Qed.

(** ** Unknown elements and the order of fields *)

(** C66: two documents whose trees are alike are read as the same response, or
    both are refused. *)
Theorem C66_alike : forall e s s' v n n',
  read_document s = Some (v, n) -> read_document s' = Some (v, n') -> alike n n' ->
  decode_response e s = decode_response e s'.
Proof. exact alike_decode. Qed.
Print Assumptions C66_alike.

(** In particular a response is read from any document that spells a tree alike to
    its own, in SGML with any header and any end tags of simple elements missing, *)
Theorem C66_sgml : forall e r t h b rest kids,
  response_representable e r -> response_tree r = Some t -> alike t (Elem (bs "OFX") kids) ->
  sgml_header_for (rs_version r) h -> length h < 1024 ->
  kids <> [] -> Forall (fun k => is_elem k = true) kids ->
  spells simple_element (fun nm => ~ simple_element nm) (Elem (bs "OFX") kids) b ->
  decode_response e (h ++ b ++ rest) = Some r.
Proof. exact alike_sgml. Qed.
Print Assumptions C66_sgml.

(** and in XML. *)
Theorem C66_xml : forall e r t crlf h w b rest kids,
  response_representable e r -> response_tree r = Some t -> alike t (Elem (bs "OFX") kids) ->
  (OfxVersion200 <= rs_version r <= OfxVersion220)%N -> write_header (rs_version r) crlf = Some h -> xml_ws w ->
  kids <> [] -> Forall (fun k => is_elem k = true) kids ->
  spells (fun _ => False) (fun _ => True) (Elem (bs "OFX") kids) b ->
  decode_response e (h ++ w ++ b ++ rest) = Some r.
Proof. exact alike_xml. Qed.
Print Assumptions C66_xml.

(** The extensions of vendors, whose names have a dot, are unknown elements. *)
Theorem C66_vendors : forall nm, In "."%char nm -> foreign nm.
Proof. exact dotted_foreign. Qed.
Print Assumptions C66_vendors.

(** Unknown elements, comments and text are not skipped in the lists of an
    investment statement: the document is refused, so no entry is lost. *)
Theorem C66_lists : forall e v L t n sub, In L investment_lists ->
  In (Elem L sub) (descend (map bs ["INVSTMTMSGSRSV1"; "INVSTMTTRNRS"; "INVSTMTRS"]%string ++ [L]) t) ->
  In n sub -> stray n -> decode_ofx e v t = None.
Proof. exact stray_document. Qed.
Print Assumptions C66_lists.

(** A sign-on response with its fields rearranged and an extension added, in both
    dialects, and an investment statement with an unknown transaction. *)
Definition crlf : str := [chr 13; chr 10].
Definition case_header : str :=
  bs "OFXHEADER:100" ++ crlf ++ bs "DATA:OFXSGML" ++ crlf ++ bs "VERSION:102" ++ crlf ++ bs "SECURITY:NONE" ++ crlf ++
  bs "ENCODING:USASCII" ++ crlf ++ bs "CHARSET:1252" ++ crlf ++ bs "COMPRESSION:NONE" ++ crlf ++
  bs "OLDFILEUID:NONE" ++ crlf ++ bs "NEWFILEUID:NONE" ++ crlf ++ crlf.
Definition case_plain : str := case_header ++
  bs "<OFX><SIGNONMSGSRSV1><SONRS><STATUS><CODE>0<SEVERITY>INFO</STATUS><DTSERVER>20060115112303<LANGUAGE>ENG</SONRS></SIGNONMSGSRSV1></OFX>".
Definition case_rearranged : str := case_header ++
  bs "<OFX><SIGNONMSGSRSV1><SONRS><LANGUAGE>ENG<DTSERVER>20060115112303<INTU.BID>3000</INTU.BID><STATUS><SEVERITY>INFO<CODE>0</STATUS></SONRS></SIGNONMSGSRSV1></OFX>".
Definition case_stray : node :=
  Elem (bs "OFX") [Elem (bs "INVSTMTMSGSRSV1") [Elem (bs "INVSTMTTRNRS") [Elem (bs "INVSTMTRS")
    [Elem (bs "INVTRANLIST") [Elem (bs "BUYCRYPTO") []]]]]].

Example C66_case :
  decodes sample_env case_plain = true /\ case_plain <> case_rearranged /\
  decode_response sample_env case_plain = decode_response sample_env case_rearranged /\
  foreign (bs "INTU.BID") /\ ~ In (bs "SONRS") strict_elements /\
  stray (Elem (bs "BUYCRYPTO") []) /\ decode_ofx sample_env OfxVersion102 case_stray = None.
Proof.
  assert (E1 : exists n, read_document case_plain = Some (OfxVersion102, n)) by (eexists; vm_compute; reflexivity).
  split; [vm_compute; reflexivity|]. split; [vm_compute; discriminate|].
  assert (Hf : foreign (bs "INTU.BID")) by (apply dotted_foreign; vm_compute; tauto).
  assert (Hs : forall nm, memb nm strict_elements = false -> ~ In nm strict_elements).
  { intros nm E H. apply memb_spec in H. congruence. }
  assert (HSONRS := Hs (bs "SONRS") eq_refl). assert (HSTATUS := Hs (bs "STATUS") eq_refl).
  split; [|split; [exact Hf|split; [exact HSONRS|]]].
  - eapply C66_alike; [vm_compute; reflexivity | vm_compute; reflexivity|].
    apply alike_below; [discriminate|]. constructor; [|constructor].
    apply alike_below; [discriminate|]. constructor; [|constructor].
    eapply alike_trans; [|exact (alike_foreign (bs "SONRS") [_; _] (bs "INTU.BID") _ [_] HSONRS Hf)]. cbn [app].
    eapply alike_trans; [|exact (alike_swap (bs "SONRS") [] (bs "DTSERVER") _ (bs "LANGUAGE") _ [_] HSONRS ltac:(discriminate))]. cbn [app].
    eapply alike_trans; [|exact (alike_swap (bs "SONRS") [_] (bs "STATUS") _ (bs "LANGUAGE") _ [] HSONRS ltac:(discriminate))]. cbn [app].
    eapply alike_trans; [|exact (alike_swap (bs "SONRS") [] (bs "STATUS") _ (bs "DTSERVER") _ [_] HSONRS ltac:(discriminate))]. cbn [app].
    apply alike_below; [discriminate|]. constructor; [|constructor; [apply alike_refl | constructor; [apply alike_refl | constructor]]].
    exact (alike_swap (bs "STATUS") [] (bs "CODE") _ (bs "SEVERITY") _ [] HSTATUS ltac:(discriminate)).
  - assert (Hb : stray (Elem (bs "BUYCRYPTO") [])).
    { intros H. apply memb_spec in H. revert H. vm_compute. discriminate. }
    split; [exact Hb|].
    apply (C66_lists sample_env _ (bs "INVTRANLIST") case_stray (Elem (bs "BUYCRYPTO") []) [Elem (bs "BUYCRYPTO") []]);
      [left; reflexivity | left; reflexivity | left; reflexivity | exact Hb].
Qed.

(** ** Dates that drift *)

Local Open Scope Z_scope.

(** C67: a date the library has read, from the zone [5.33], is written so that it
    is read as another instant. *)
Theorem C67_drift_refuted : exists e t t',
  date_unmarshal e (bs "20240229120000[5.33:ABC]") = Some t /\
  date_unmarshal e (date_string t) = Some t' /\ date_equal t t' = false.
Proof.
  exists sample_env. eexists. eexists. split; [vm_compute; reflexivity|]. split; vm_compute; reflexivity.
Qed.
Print Assumptions C67_drift_refuted.

(** What holds for all offsets outside of C10: the civil time stays, and the zone
    becomes [reread_offset], *)
Theorem C67_reread_partial : forall e c off n l r,
  civil_ok c -> -90000 < off < 90000 -> ~ -3600 < off < 0 ->
  (n = [] \/ abbreviation (reread_offset off) n) -> ws_run l ->
  exists name, date_unmarshal e (l ++ date_string (mkTime (instant c off) off n) ++ r) =
    Some (mkTime (instant c (reread_offset off)) (reread_offset off) name).
Proof. exact date_reread. Qed.
Print Assumptions C67_reread_partial.

(** which is the same offset exactly for the multiples of three minutes, *)
Theorem C67_kept : forall off, reread_offset off = off <-> Z.divide 180 off.
Proof. exact reread_fixed. Qed.
Print Assumptions C67_kept.

(** nearer to zero by less than 96 seconds in general, and by one minute for whole
    minutes that are not a multiple of three. *)
Theorem C67_near : forall off,
  (0 <= off -> 0 <= off - reread_offset off < 96) /\ (off < 0 -> 0 <= reread_offset off - off < 96).
Proof. exact reread_near. Qed.
Print Assumptions C67_near.

Theorem C67_minutes : forall m, 0 <= m ->
  reread_offset (60 * m) = 60 * (if m mod 3 =? 0 then m else m - 1) /\
  reread_offset (- (60 * m)) = - (60 * (if m mod 3 =? 0 then m else m - 1)).
Proof. intros m Hm. rewrite reread_opp, (reread_minutes m Hm). split; reflexivity. Qed.
Print Assumptions C67_minutes.

Example C67_case : reread_offset (60 * 319) = 60 * 318 /\ reread_offset (60 * 318) = 60 * 318 /\
  reread_offset (- (60 * 319)) = - (60 * 318) /\ abbreviation (reread_offset (60 * 319)) (bs "ABC").
Proof.
  split; [reflexivity|]. split; [reflexivity|]. split; [reflexivity|].
  split; [repeat constructor; discriminate|]. right; left. split; [reflexivity | discriminate].
Qed.
