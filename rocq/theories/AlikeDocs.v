(** Documents with unknown elements and reordered fields, and lists with unknown
    elements. *)
From Coq Require Import QArith Lia Bool String.
From Coq Require Import List.
From Verif Require Import GoStr SpecStr GoStrFacts GoTime Types Enums EnumTables Records Common Messages Codec CodecFacts CodecSim SpecCodec
  Schema Document SpecDocument SetsFacts FilingFacts TreeFacts SpecLists ListFacts Xml SpecXml SpellFacts SimFacts Headers SpecHeader
  HeaderFacts WrittenHeaderFacts FormFacts Leaves Wire SpecWire WireFacts SpecDecode AlikeFacts.
Close Scope Q_scope.
Close Scope string_scope.
Open Scope list_scope.

(** ** Documents *)

Theorem alike_decode e s s' v n n' : read_document s = Some (v, n) -> read_document s' = Some (v, n') -> alike n n' ->
  decode_response e s = decode_response e s'.
Proof.
  intros E E' H. unfold decode_response. rewrite E, E'. cbn [bind fst snd].
  apply (alike_document e _ _ H).
Qed.

Theorem alike_sgml e r t h b rest kids :
  response_representable e r -> response_tree r = Some t -> alike t (Elem (bs "OFX") kids) ->
  sgml_header_for (rs_version r) h -> length h < 1024 ->
  kids <> [] -> Forall (fun k => is_elem k = true) kids ->
  spells simple_element (fun nm => ~ simple_element nm) (Elem (bs "OFX") kids) b ->
  decode_response e (h ++ b ++ rest) = Some r.
Proof.
  intros Hr Et Ha Hh Hl Hk He Hs.
  destruct (read_sgml_spelled _ h b rest kids Hh Hl Hk He Hs) as (n & E & Hn).
  unfold decode_response. rewrite E. cbn [bind fst snd].
  rewrite <- (sim_decode_ofx e _ _ _ (proj1 same_tree_sim _ _ Hn)).
  destruct (alike_document e _ _ Ha) as (_ & _ & _ & Hd). rewrite <- Hd.
  exact (document_round_trip e r t Hr Et).
Qed.

Theorem read_xml_spelled v crlf h w b rest kids :
  (OfxVersion200 <= v <= OfxVersion220)%N -> write_header v crlf = Some h -> xml_ws w ->
  kids <> [] -> Forall (fun k => is_elem k = true) kids ->
  spells (fun _ => False) (fun _ => True) (Elem (bs "OFX") kids) b ->
  exists n, read_document (h ++ w ++ b ++ rest) = Some (v, n) /\ same_tree (Elem (bs "OFX") kids) n.
Proof.
  intros Hver Hh Hw Hk Hel Hs. pose proof (spells_start _ _ _ _ Hs) as Hlt. unfold read_document.
  destruct (written_xml v crlf h (w ++ b ++ rest) Hver Hh) as [E1 E2]. rewrite E1, E2. cbn [bind fst snd].
  destruct (spells_root true [] (fun _ => False) (fun _ => True) (bs "OFX") kids b rest) as (ts & n & El & Er & Hn); auto.
  { intros nm Hnm. destruct Hnm. }
  { intros nm _. reflexivity. }
  exists n. split; [|exact Hn].
  assert (Hww : xml_ws (line_end crlf ++ w)) by (apply Forall_app; split; [apply line_end_ws | exact Hw]).
  pose proof (read_ofx_start true [] (line_end crlf ++ w) b rest ts n kids Hww Hlt El Er Hn) as E.
  rewrite <- app_assoc in E. rewrite E. reflexivity.
Qed.

Theorem alike_xml e r t crlf h w b rest kids :
  response_representable e r -> response_tree r = Some t -> alike t (Elem (bs "OFX") kids) ->
  (OfxVersion200 <= rs_version r <= OfxVersion220)%N -> write_header (rs_version r) crlf = Some h -> xml_ws w ->
  kids <> [] -> Forall (fun k => is_elem k = true) kids ->
  spells (fun _ => False) (fun _ => True) (Elem (bs "OFX") kids) b ->
  decode_response e (h ++ w ++ b ++ rest) = Some r.
Proof.
  intros Hr Et Ha Hv Hh Hw Hk He Hs.
  destruct (read_xml_spelled _ crlf h w b rest kids Hv Hh Hw Hk He Hs) as (n & E & Hn).
  unfold decode_response. rewrite E. cbn [bind fst snd].
  rewrite <- (sim_decode_ofx e _ _ _ (proj1 same_tree_sim _ _ Hn)).
  destruct (alike_document e _ _ Ha) as (_ & _ & _ & Hd). rewrite <- Hd.
  exact (document_round_trip e r t Hr Et).
Qed.

(** Names with a dot, which vendors use for their extensions, are not known. *)
Lemma dotted_foreign nm : In "."%char nm -> foreign nm.
Proof.
  intros H Hin.
  assert (E : forallb (fun n => negb (existsb (Ascii.eqb "."%char) n)) (flat_map tag_names response_types) = true)
    by (vm_compute; reflexivity).
  rewrite forallb_forall in E. specialize (E _ Hin). apply negb_true_iff in E.
  assert (E' : existsb (Ascii.eqb "."%char) nm = true) by (apply existsb_exists; exists "."%char; split; [exact H | apply Ascii.eqb_refl]).
  congruence.
Qed.

(** ** Lists *)

Lemma custom_none fs nm k v : forallb (fun x => negb (str_eqb x nm)) (tags_of fs) = true -> match_custom fs nm k v = None.
Proof.
  induction fs as [|ps n om t fs IH]; intros H; [reflexivity|]. cbn [tags_of] in H.
  rewrite forallb_app in H. apply andb_true_iff in H as [_ H]. cbn [forallb] in H. apply andb_true_iff in H as [Hn H].
  rewrite forallb_app in H. apply andb_true_iff in H as [Ht H]. cbn [match_custom].
  assert (E : (match t with TAlts a => has_alt a nm | _ => str_eqb n nm end) = false).
  { apply negb_true_iff in Hn. destruct t; try exact Hn. cbn [tag_names] in Ht. clear - Ht.
    induction a as [|rd wr t a IH]; [reflexivity|]. cbn [alt_tags forallb has_alt] in *.
    apply andb_true_iff in Ht as [H1 H2]. apply negb_true_iff in H1. rewrite H1. cbn [orb]. apply IH.
    rewrite forallb_app in H2. apply andb_true_iff in H2. tauto. }
  rewrite E, IH by exact H. reflexivity.
Qed.

Lemma foreign_tags u (t : ty) : foreign u -> incl (tag_names t) known_tags -> forallb (fun x => negb (str_eqb x u)) (tag_names t) = true.
Proof.
  intros Hu Hi. apply forallb_forall. intros x Hx. apply negb_true_iff. destruct (str_eqb x u) eqn:E; [|reflexivity].
  apply str_eqb_eq in E as ->. destruct (Hu (Hi _ Hx)).
Qed.

Lemma stray_custom e fs kids n v : incl (tags_of fs) known_tags -> In n kids -> stray n -> steps e (cust_step e fs) kids v = None.
Proof.
  intros Hi Hin Hn. unfold steps.
  refine (run_all_none _ (token_step n (cust_step e fs n)) v _ _); [apply in_map_iff; exists n; auto|].
  intros w. destruct n as [nm k|s|]; cbn [token_step stray] in *; [|rewrite Hn; reflexivity|reflexivity].
  unfold cust_step. apply custom_none.
  apply forallb_forall. intros x Hx. apply negb_true_iff. destruct (str_eqb x nm) eqn:E; [|reflexivity].
  apply str_eqb_eq in E as ->. destruct (Hn (Hi _ Hx)).
Qed.

Lemma stray_altlist e a kids n v : incl (alt_tags a) known_tags -> In n kids -> stray n -> steps e (alt_step e a) kids v = None.
Proof.
  intros Hi Hin Hn. unfold steps.
  refine (run_all_none _ (token_step n (alt_step e a n)) v _ _); [apply in_map_iff; exists n; auto|].
  intros w. destruct n as [nm k|s|]; cbn [token_step stray] in *; [|rewrite Hn; reflexivity|reflexivity].
  unfold alt_step. rewrite has_alt_match; [reflexivity|].
  destruct (has_alt a nm) eqn:E; [|reflexivity]. exfalso. apply Hn, Hi. clear - E.
  induction a as [|rd wr t a IH]; [discriminate|]. cbn [has_alt alt_tags] in *. apply orb_true_iff in E as [E|E].
  - apply str_eqb_eq in E as ->. left; reflexivity.
  - right. apply in_or_app. right. auto.
Qed.

Lemma known_incl l : forallb (fun x => memb x known_tags) l = true -> incl l known_tags.
Proof. intros H x Hx. rewrite forallb_forall in H. apply memb_spec, H, Hx. Qed.

Lemma list_walk e L kids n : In L investment_lists -> In n kids -> stray n ->
  forall v, d_walk (decode e (Elem L kids)) InvStatementResponse_fields [bs "INVSTMTRS"] v = None.
Proof.
  intros HL Hin Hn v. rewrite walk_elem.
  assert (E : match_fields InvStatementResponse_fields [bs "INVSTMTRS"] L (d_value (decode e (Elem L kids))) v = Hit None);
    [|rewrite E; reflexivity].
  unfold investment_lists in HL. cbn [map In] in HL. destruct HL as [<-|[<-|[<-|[]]]]; unfold InvStatementResponse_fields.
  - repeat (apply match_skip; [reflexivity|]). apply match_here; [reflexivity | reflexivity|]. intros w.
    change (unmarshal e (TPtr InvTranList_ty) (Elem (bs "INVTRANLIST") kids) w = None).
    rewrite unmarshal_ptr. unfold InvTranList_ty. rewrite unmarshal_custom, (stray_custom e _ kids n); [reflexivity | | exact Hin | exact Hn].
    apply known_incl. vm_compute. reflexivity.
  - repeat (apply match_skip; [reflexivity|]). apply match_here; [reflexivity | reflexivity|]. intros w.
    change (unmarshal e (TAltList (bs "INVPOSLIST") Position_alts) (Elem (bs "INVPOSLIST") kids) w = None).
    rewrite unmarshal_altlist. apply (stray_altlist e _ kids n); [|exact Hin | exact Hn].
    apply known_incl. vm_compute. reflexivity.
  - repeat (apply match_skip; [reflexivity|]). apply match_here; [reflexivity | reflexivity|]. intros w.
    change (unmarshal e (TAltList (bs "INVOOLIST") OpenOrder_alts) (Elem (bs "INVOOLIST") kids) w = None).
    rewrite unmarshal_altlist. apply (stray_altlist e _ kids n); [|exact Hin | exact Hn].
    apply known_incl. vm_compute. reflexivity.
Qed.

Lemma invstmtrs_list_walk e L kids kids' n : In L investment_lists -> In (Elem L kids) kids' -> In n kids -> stray n ->
  forall v, d_walk (decode e (Elem (bs "INVSTMTRS") kids')) InvStatementResponse_fields [] v = None.
Proof.
  intros HL H1 H2 Hn v. rewrite walk_elem.
  match goal with |- match match_fields ?fs ?ps ?nm ?dec ?v with _ => _ end = _ =>
    assert (E : match_fields fs ps nm dec v = Prefix) by reflexivity end.
  rewrite E. unfold walks.
  refine (run_all_none _ (d_walk (decode e (Elem L kids)) InvStatementResponse_fields ([] ++ [bs "INVSTMTRS"])) v _ _).
  - apply in_map_iff. exists (Elem L kids). auto.
  - exact (list_walk e L kids n HL H2 Hn).
Qed.

Theorem stray_statement e nm L sub kids kids' n v : In L investment_lists ->
  In (Elem (bs "INVSTMTRS") kids') sub -> In (Elem L kids) kids' -> In n kids -> stray n ->
  unmarshal e InvStatementResponse_ty (Elem nm sub) v = None.
Proof.
  intros HL H0 H1 H2 Hn. unfold unmarshal, InvStatementResponse_ty. cbn [decode d_value value_decoder].
  match goal with |- (if ?b then _ else _) = _ => destruct b; [reflexivity|] end.
  eapply run_all_none; [apply (in_decoders e (fun d => d_walk d InvStatementResponse_fields []) _ _ H0)|].
  eapply invstmtrs_list_walk; eassumption.
Qed.

Theorem stray_document e v L t n sub : In L investment_lists ->
  In (Elem L sub) (descend (map bs ["INVSTMTMSGSRSV1"; "INVSTMTTRNRS"; "INVSTMTRS"]%string ++ [L]) t) ->
  In n sub -> stray n -> decode_ofx e v t = None.
Proof.
  intros HL Hin Hsub Hn. destruct (decode_ofx e v t) as [r|] eqn:E; [|reflexivity]. exfalso.
  apply decode_ofx_iff in E as (_ & kids & b & x & a & sets & -> & Es & _ & _ & _ & _ & _ & HF).
  cbn [map app] in Hin.
  apply in_descend in Hin as (y1 & k1 & s1 & E1 & H1 & Hin). injection E1 as <- <-.
  apply in_descend in Hin as (y2 & k2 & s2 & E2 & H2 & Hin). injection E2 as <- <-.
  apply in_descend in Hin as (y3 & k3 & s3 & E3 & H3 & Hin). injection E3 as <- <-.
  apply in_descend in Hin as (y4 & k4 & s4 & E4 & H4 & Hin). injection E4 as <- <-.
  cbn [descend In] in Hin. destruct Hin as [Hin|[]]. injection Hin as ->.
  assert (Hs : In (Elem (bs "INVSTMTMSGSRSV1") s1) sets).
  { assert (Hk : In (Elem (bs "INVSTMTMSGSRSV1") s1) (solid kids)) by (apply filter_In; auto).
    rewrite Es in Hk. destruct Hk as [E|Hk]; [|exact Hk]. exfalso.
    assert (En : bs "SIGNONMSGSRSV1" = bs "INVSTMTMSGSRSV1") by congruence. discriminate En. }
  assert (Hf : In (Elem (bs "INVSTMTTRNRS") s2) (filed_under (bs "INVSTMTMSGSRSV1") sets)).
  { apply filed_incl. exists s1. split; [exact Hs|]. apply filter_In. auto. }
  assert (Hr : exists m, message_reads e (bs "INVSTMTMSGSRSV1") m (Elem (bs "INVSTMTTRNRS") s2)).
  { assert (HF' : Forall2 (message_reads e (bs "INVSTMTMSGSRSV1")) (sl_invstmt (rs_slots r)) (filed_under (bs "INVSTMTMSGSRSV1") sets))
      by (apply HF; cbn; tauto).
    clear - HF' Hf. induction HF' as [|m n ms ns Hm _ IH]; [destruct Hf|]. destruct Hf as [->|Hf]; eauto. }
  destruct Hr as (m & Hb & _ & Hr). destruct m; cbn in Hb; try discriminate Hb.
  cbn [reads_as] in Hr.
  rewrite (stray_statement e (bs "INVSTMTTRNRS") L s2 sub s3 n) in Hr; [discriminate Hr | exact HL | exact H3 | exact H4 | exact Hsub | exact Hn].
Qed.
