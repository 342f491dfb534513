(** A response that was read, written and read again. *)
From Coq Require Import QArith Lia Bool ZifyBool ZifyNat ZifyN.
From Coq Require Import List.
From Verif Require Import GoStr SpecStr GoStrFacts GoTime Types Enums EnumTables Records Common
  Messages SpecNum SpecDate SpecDateText DateFacts DateTextFacts TypesFacts Codec CodecFacts CodecSim SpecCodec Schema SchemaInv Document SpecDocument
  DocumentFacts SetsFacts
  FilingFacts SpecXml Utf8 Xml XmlFacts LexFacts SpellFacts Leaves SpecWire FormFacts Headers SpecHeader HeaderFacts WrittenHeaderFacts
  Wire WireFacts ClosureCodec SpecDecode ClosureFacts ClosureDocs EnumFacts SpecReread RereadFacts SpecAgain AgainFacts AgainDocFacts.
From Verif Require SettleFacts.
Close Scope Q_scope.

(** A field that was read, or is missing. *)
Definition from_text (e : env) (l : leafty) (v : leafval l) : Prop :=
  v = leaf_zero l \/ exists s, leaf_unmarshal e l s = Some v.

Lemma value_from {A} e t (f : interp t -> A) (g : A -> interp t) n r : (forall v, g (f v) = v) ->
  texts xml_string n -> option_map f (unmarshal e t n (zero t)) = Some r -> every (from_text e) t (g r).
Proof.
  intros Hi Hn H. destruct (unmarshal e t n (zero t)) as [v|] eqn:E; [|discriminate]. cbn [option_map] in H.
  assert (Hr : f v = r) by congruence. rewrite <- Hr, Hi. apply kept_every.
  refine (unmarshal_kept e (from_text e) xml_string _ xml_string_nil xml_string_app _ n t v Hn E).
  - intros l. left. reflexivity.
  - intros l s w _ H'. right. exists s. exact H'.
Qed.

Lemma reads_from e n m : texts xml_string n -> reads_as e n m -> message_every (from_text e) m.
Proof.
  intros Hn H. destruct m; cbn [reads_as message_every] in *.
  - exact (value_from e _ _ _ n _ AcctInfoRequest_inv Hn H).
  - exact (value_from e _ _ _ n _ StatementRequest_inv Hn H).
  - exact (value_from e _ _ _ n _ CCStatementRequest_inv Hn H).
  - exact (value_from e _ _ _ n _ InvStatementRequest_inv Hn H).
  - exact (value_from e _ _ _ n _ SecListRequest_inv Hn H).
  - exact (value_from e _ _ _ n _ ProfileRequest_inv Hn H).
  - exact (value_from e _ _ _ n _ AcctInfoResponse_inv Hn H).
  - exact (value_from e _ _ _ n _ StatementResponse_inv Hn H).
  - exact (value_from e _ _ _ n _ CCStatementResponse_inv Hn H).
  - exact (value_from e _ _ _ n _ InvStatementResponse_inv Hn H).
  - exact (value_from e _ _ _ n _ SecListResponse_inv Hn H).
  - exact (value_from e _ _ _ n _ SecurityList_inv Hn H).
  - exact (value_from e _ _ _ n _ ProfileResponse_inv Hn H).
Qed.

Lemma response_from e n r : texts xml_string n -> response_reads e n r -> response_every (from_text e) r.
Proof.
  intros Hn (kids & before & x & after & sets & -> & Es & Hb & Ha & Hx & Eu & H1 & H2).
  assert (Hs : Forall (texts xml_string) (Elem (bs "SIGNONMSGSRSV1") (before ++ x :: after) :: sets)).
  { rewrite <- Es. apply Forall_forall. intros k Hk. exact (texts_in _ _ _ k Hn (solid_in k kids Hk)). }
  inversion Hs as [|? ? Hs1 Hs2]; subst. split.
  - refine (value_from e _ _ _ x _ SignonResponse_inv _ Eu).
    apply (texts_in _ _ _ x Hs1). apply in_or_app. right. left. reflexivity.
  - intros set ms m Hset Hin. destruct (Forall2_in_fst _ _ _ _ (H2 set ms Hset) Hin) as (y & Hy & _ & _ & Hr).
    apply (reads_from e y m); [|exact Hr]. exact (filed_texts _ _ _ _ Hs2 Hy).
Qed.

Lemma decoded_from e s r : decode_response e s = Some r -> response_every (from_text e) r.
Proof.
  intros H. unfold decode_response in H.
  destruct (read_document s) as [[v n]|] eqn:E; [|discriminate]. cbn [bind fst snd] in H.
  apply decode_ofx_iff in H as [_ H]. apply read_document_texts in E. exact (response_from e n r E H).
Qed.

(** The names of the zone of the machine can be read. *)
Definition named_zone (e : env) : Prop := forall i, fst (env_local e i) = [] \/ abbreviation 0 (fst (env_local e i)).

Lemma date_readable e t : named_zone e -> from_text e LDate t -> readable e LDate t /\ SpecWire.clean_text LDate t.
Proof.
  intros He [-> |[s H]].
  - split; [eexists; vm_compute; reflexivity|]. apply upper_xml. repeat constructor; cbn; discriminate.
  - cbn [leaf_unmarshal] in H. split.
    + destruct (read_written e e s t H He) as [t' Ht]. exists t'. exact Ht.
    + cbn [SpecWire.clean_text]. apply upper_xml. destruct (read_name e s t H) as [-> |[[Hu _]|Hl]]; [constructor|exact Hu|].
      destruct (He (t_ns t / 1000000000)%Z) as [E|[Hu _]]; rewrite Hl in *; cbn [fst] in *; [rewrite E; constructor|exact Hu].
Qed.

Definition enum_leaf_ok (l : leafty) : bool := match l with LEnum t => enum_wfb t | _ => true end.

(** Dates and amounts are the only fields that may change. *)
Lemma again_same e l v : enum_leaf_ok l = true -> read_field e l v -> l <> LDate -> l <> LAmount -> again e l v = v /\ readable e l v.
Proof.
  intros Hw Hr Hd Ha.
  assert (Hok : leaf_ok e l v).
  { apply read_exact_ok; [exact Hr|]. destruct l; try exact I; congruence. }
  assert (Hrt : leaf_rt e l v).
  { apply leaf_ok_rt; [|exact Hok]. intros t ->. exact Hw. }
  unfold leaf_rt in Hrt. unfold again, readable, back. destruct (leaf_marshal l v) as [[s|]|]; [| |contradiction].
  - rewrite Hrt. split; [reflexivity|eauto].
  - subst v. split; [reflexivity|eauto].
Qed.

Lemma every_enums_all (P Q : forall l, leafval l -> Prop) : (forall l v, enum_leaf_ok l = true -> P l v -> Q l v) ->
  (forall t v, enums_ok t = true -> every P t v -> every Q t v) /\
  (forall fs v, enums_ok_flds fs = true -> every_field P fs v -> every_field Q fs v) /\
  (forall a v, enums_ok_alts a = true -> every_alt P a v -> every_alt Q a v).
Proof.
  intros H. apply schema_ind.
  - intros l v He H1. apply H; [destruct l; exact He || reflexivity|exact H1].
  - intros x fs IH v He H1; exact (IH v He H1).
  - intros t IH [v|] He H1; [exact (IH v He H1) | exact I].
  - intros t IH v He H1. cbn in *. revert H1. apply Forall_impl. intros a. apply IH, He.
  - intros x fs IH v He H1; exact (IH v He H1).
  - intros a IH v He H1. cbn in *. revert H1. apply Forall_impl. intros b. apply IH, He.
  - intros x a IH v He H1. cbn in *. revert H1. apply Forall_impl. intros b. apply IH, He.
  - intros fs IH v He H1. cbn in *. revert H1. apply Forall_impl. intros b. apply IH, He.
  - intros v He H1; exact I.
  - intros ps nm om t IHt fs IHf v He [H1 H2]. cbn [enums_ok_flds] in He. apply andb_true_iff in He as [He1 He2]. split; auto.
  - intros v He H1; exact I.
  - intros rd wr t IHt a IHa v He H1. cbn [enums_ok_alts] in He. apply andb_true_iff in He as [He1 He2]. destruct v; cbn in *; auto.
Qed.

Lemma message_enums (P Q : forall l, leafval l -> Prop) m : (forall l v, enum_leaf_ok l = true -> P l v -> Q l v) ->
  message_every P m -> message_every Q m.
Proof.
  intros H Hm. destruct m; cbn [message_every] in *; (refine (proj1 (every_enums_all P Q H) _ _ _ Hm); vm_compute; reflexivity).
Qed.

Lemma response_enums (P Q : forall l, leafval l -> Prop) r : (forall l v, enum_leaf_ok l = true -> P l v -> Q l v) ->
  response_every P r -> response_every Q r.
Proof.
  intros H [H1 H2]. split; [refine (proj1 (every_enums_all P Q H) _ _ _ H1); vm_compute; reflexivity|].
  intros set ms m Hs Hm. exact (message_enums P Q m H (H2 set ms m Hs Hm)).
Qed.

Lemma response_both (P Q : forall l, leafval l -> Prop) r : response_every P r -> response_every Q r ->
  response_every (fun l v => P l v /\ Q l v) r.
Proof.
  intros [H1 H2] [H3 H4]. split; [exact (every_both P Q _ (fun l v a b => conj a b) _ _ H1 H3)|].
  intros set ms m Hs Hm. pose proof (H2 set ms m Hs Hm) as A. pose proof (H4 set ms m Hs Hm) as B.
  destruct m; cbn [message_every] in *; exact (every_both P Q _ (fun l v a b => conj a b) _ _ A B).
Qed.

Lemma leaf_read_again e l v : named_zone e -> enum_leaf_ok l = true -> read_field e l v /\ from_text e l v ->
  readable e l v /\ SpecWire.clean_text l v /\ (l = LDate \/ l = LAmount \/ again e l v = v).
Proof.
  intros He Hw [H1 H2].
  destruct l; try (match goal with |- readable _ ?l _ /\ _ => 
    destruct (again_same e l v Hw H1 ltac:(discriminate) ltac:(discriminate)) as [E R] end;
    split; [exact R|]; split; [|right; right; exact E]; cbn [SpecWire.clean_text read_field] in *; try exact I; try (apply H1)).
  - split; [|split; [exact I|auto]]. destruct (SettleFacts.amounts_settle v) as (y & Hy & _). exists y. exact Hy.
  - destruct (date_readable e v He H2) as [R C]. auto.
  - destruct H1 as (_ & H1 & _). apply upper_xml, H1.
Qed.

Theorem read_again e s r : env_currency e (bs "XXX") = true -> named_zone e ->
  parse_response e s = (Some r, None) -> response_named r ->
  exists b, response_marshal r = Some b /\
    (forall rest, decode_response e (b ++ rest) = Some (response_changed (again e) r)) /\
    response_every (fun l v => l = LDate \/ l = LAmount \/ again e l v = v) r.
Proof.
  intros He Hz Hp Hn. unfold parse_response in Hp.
  destruct (decode_response e s) as [r'|] eqn:Ed; [|discriminate]. injection Hp as -> Hval.
  destruct (decoded_fields e s r He Ed) as (Hf & Hv & Hb).
  pose proof (response_enums _ _ r (fun l v Hw => leaf_read_again e l v Hz Hw) (response_both _ _ r Hf (decoded_from e s r Ed))) as Hall.
  assert (W : forall Q : forall l, leafval l -> Prop, (forall l v, readable e l v /\ SpecWire.clean_text l v /\ (l = LDate \/ l = LAmount \/ again e l v = v) -> Q l v) -> response_every Q r).
  { intros Q H. revert Hall. apply response_enums. intros l v _. apply H. }
  pose proof (W (readable e) (fun l v H => proj1 H)) as Hr.
  pose proof (W (fun l v => SpecWire.clean_text l v) (fun l v H => proj1 (proj2 H))) as [Hc1 Hc2].
  assert (Hclean : response_clean r).
  { split; [exact Hc1|]. intros set ms m Hs Hm. split; [exact (Hc2 _ _ _ Hs Hm)|exact (Hn _ _ _ Hs Hm)]. }
  pose proof Hval as Hval'. apply response_valid_iff in Hval' as [Hs Hm].
  assert (Ht : some (response_tree r)).
  { apply response_tree_iff. split; [exact Hs|]. intros set ms m H1 H2. split; [apply (Hb _ _ _ H1 H2)|].
    split; [exact (Hm _ _ _ H1 H2) | exact (message_named_encodable m (Hn _ _ _ H1 H2))]. }
  apply some_ex in Ht as [t Et].
  exists (header_or_nothing (rs_version r) false ++ print (mkStyle true false []) true 0 t).
  assert (Em : response_marshal r = Some (header_or_nothing (rs_version r) false ++ print (mkStyle true false []) true 0 t)).
  { unfold response_marshal. rewrite Et. reflexivity. }
  split; [exact Em|]. split; [|exact (W _ (fun l v H => proj2 (proj2 H)))]. intros rest.
  exact (response_again e r _ rest Hr Hclean Hv (fun set ms m a b => proj2 (Hb set ms m a b)) Em).
Qed.
