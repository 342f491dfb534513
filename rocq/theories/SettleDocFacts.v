(** Writing and reading a response again and again. *)
From Coq Require Import QArith Lia Bool ZifyBool ZifyNat ZifyN.
From Coq Require Import List.
From Verif Require Import GoStr SpecStr GoStrFacts GoTime Types Enums EnumTables Records Common
  Messages SpecNum SpecDate SpecDateText DateFacts DateTextFacts TypesFacts Codec CodecFacts CodecSim SpecCodec Schema SchemaInv Document SpecDocument
  DocumentFacts SetsFacts
  FilingFacts SpecXml Utf8 Xml XmlFacts LexFacts SpellFacts Leaves SpecWire FormFacts Headers SpecHeader HeaderFacts WrittenHeaderFacts
  Wire WireFacts ClosureCodec SpecDecode ClosureFacts ClosureDocs EnumFacts SpecReread SpecAgain AgainFacts AgainDocFacts AgainReadFacts.
From Verif Require SettleFacts.
Close Scope Q_scope.

Lemma Forall_map_eq {A B} (f g : A -> B) l : Forall (fun x => f x = g x) l -> map f l = map g l.
Proof. induction 1; cbn [map]; congruence. Qed.

Lemma changed_ext_all (f g : forall l, leafval l -> leafval l) :
  (forall t v, every (fun l x => f l x = g l x) t v -> changed f t v = changed g t v) /\
  (forall fs v, every_field (fun l x => f l x = g l x) fs v -> changed_flds f fs v = changed_flds g fs v) /\
  (forall a v, every_alt (fun l x => f l x = g l x) a v -> changed_alts f a v = changed_alts g a v).
Proof.
  apply schema_ind.
  - intros l v H; exact H.
  - intros x fs IH v H; exact (IH v H).
  - intros t IH [v|] H; [cbn in *; f_equal; exact (IH v H) | reflexivity].
  - intros t IH v H. cbn in *. apply Forall_map_eq. revert H. apply Forall_impl. exact IH.
  - intros x fs IH v H; exact (IH v H).
  - intros a IH v H. cbn in *. apply Forall_map_eq. revert H. apply Forall_impl. exact IH.
  - intros x a IH v H. cbn in *. apply Forall_map_eq. revert H. apply Forall_impl. exact IH.
  - intros fs IH v H. cbn in *. apply Forall_map_eq. revert H. apply Forall_impl. intros y Hy. f_equal. exact (IH _ Hy).
  - intros v H; reflexivity.
  - intros ps nm om t IHt fs IHf v [H1 H2]. cbn [changed_flds]. f_equal; auto.
  - intros v H; reflexivity.
  - intros rd wr t IHt a IHa [v|v] H; cbn in *; f_equal; auto.
Qed.

Lemma changed_comp_all (f g : forall l, leafval l -> leafval l) :
  (forall t v, changed f t (changed g t v) = changed (fun l x => f l (g l x)) t v) /\
  (forall fs v, changed_flds f fs (changed_flds g fs v) = changed_flds (fun l x => f l (g l x)) fs v) /\
  (forall a v, changed_alts f a (changed_alts g a v) = changed_alts (fun l x => f l (g l x)) a v).
Proof.
  apply schema_ind.
  - reflexivity.
  - intros x fs IH v; exact (IH v).
  - intros t IH [v|]; [cbn; f_equal; exact (IH v) | reflexivity].
  - intros t IH v. cbn. rewrite map_map. apply map_ext. exact IH.
  - intros x fs IH v; exact (IH v).
  - intros a IH v. cbn. rewrite map_map. apply map_ext. exact IH.
  - intros x a IH v. cbn. rewrite map_map. apply map_ext. exact IH.
  - intros fs IH v. cbn. rewrite map_map. apply map_ext. intros y. cbn [fst snd]. f_equal. apply IH.
  - reflexivity.
  - intros ps nm om t IHt fs IHf v. cbn [changed_flds fst snd]. f_equal; auto.
  - reflexivity.
  - intros rd wr t IHt a IHa [v|v]; cbn; f_equal; auto.
Qed.

Lemma changed_comp f g t v : changed f t (changed g t v) = changed (fun l x => f l (g l x)) t v.
Proof. apply changed_comp_all. Qed.

Lemma message_comp f g m : message_changed f (message_changed g m) = message_changed (fun l x => f l (g l x)) m.
Proof.
  destruct m; cbn [message_changed]; apply f_equal; apply f_equal;
    (etransitivity; [|apply changed_comp]; apply f_equal);
  first [ apply AcctInfoRequest_inv | apply StatementRequest_inv | apply CCStatementRequest_inv
        | apply InvStatementRequest_inv | apply SecListRequest_inv | apply ProfileRequest_inv
        | apply AcctInfoResponse_inv | apply StatementResponse_inv | apply CCStatementResponse_inv
        | apply InvStatementResponse_inv | apply SecListResponse_inv | apply SecurityList_inv
        | apply ProfileResponse_inv ].
Qed.

Lemma message_ext f g m : message_every (fun l x => f l x = g l x) m -> message_changed f m = message_changed g m.
Proof.
  destruct m; cbn [message_every message_changed]; intros H; apply f_equal; apply f_equal; apply (proj1 (changed_ext_all f g)); exact H.
Qed.

Lemma response_comp f g r : response_changed f (response_changed g r) = response_changed (fun l x => f l (g l x)) r.
Proof.
  unfold response_changed. cbn [rs_version rs_signon rs_slots Document.sl_signup Document.sl_bank Document.sl_creditcard Document.sl_loan Document.sl_invstmt
    Document.sl_interxfer Document.sl_wirexfer Document.sl_billpay Document.sl_email Document.sl_seclist Document.sl_presdir Document.sl_presdlv Document.sl_prof Document.sl_image].
  rewrite SignonResponse_inv, changed_comp, !map_map.
  rewrite !(map_ext _ _ (message_comp f g)). reflexivity.
Qed.

Lemma response_ext f g r : response_every (fun l x => f l x = g l x) r -> response_changed f r = response_changed g r.
Proof.
  intros [H1 H2]. unfold response_changed. rewrite (proj1 (changed_ext_all f g) _ _ H1).
  assert (M : forall set ms, In (set, ms) (response_sets (rs_slots r)) -> map (message_changed f) ms = map (message_changed g) ms).
  { intros set ms Hin. apply map_ext_in. intros m Hm. apply message_ext. exact (H2 set ms m Hin Hm). }
  apply f_equal. apply slots_eq. intros set _. destruct set; [reflexivity|..];
    match goal with |- ?a = ?b => let a := eval cbv beta zeta iota delta [slot] in a in let b := eval cbv beta zeta iota delta [slot] in b in change (a = b) end;
    cbn [Document.sl_signup Document.sl_bank Document.sl_creditcard Document.sl_loan Document.sl_invstmt
      Document.sl_interxfer Document.sl_wirexfer Document.sl_billpay Document.sl_email Document.sl_seclist Document.sl_presdir Document.sl_presdlv Document.sl_prof Document.sl_image];
    (eapply M; unfold response_sets; repeat first [left; reflexivity | right]).
Qed.

(** The names of the zone of the machine can be read, at its offset. *)
Definition zone_named (e : env) : Prop := forall i, fst (env_local e i) = [] \/ abbreviation (snd (env_local e i)) (fst (env_local e i)).

Lemma zone_named_zone e : zone_named e -> named_zone e.
Proof.
  intros H i. destruct (H i) as [E|[Hu Ha]]; [left; exact E|]. right. split; [exact Hu|].
  destruct Ha as [[E _]|Ha]; [left; auto|right; exact Ha].
Qed.

Lemma leaf_settles e l v : zone_named e -> enum_leaf_ok l = true -> read_field e l v /\ from_text e l v ->
  again e l (again e l (again e l v)) = again e l (again e l v).
Proof.
  intros He Hw H. destruct (leaf_read_again e l v (zone_named_zone e He) Hw H) as (_ & _ & [-> |[-> |E]]).
  - destruct H as [_ [-> |[s Hs]]].
    + assert (E : again e LDate (leaf_zero LDate) = leaf_zero LDate) by (vm_compute; reflexivity). rewrite !E. reflexivity.
    + destruct (SettleFacts.dates_settle e s v Hs He) as (t1 & t2 & E1 & E2 & E3 & _).
      unfold again, back. cbn [leaf_marshal leaf_unmarshal]. rewrite E1, E2, E3. reflexivity.
  - destruct (SettleFacts.amounts_settle v) as (y & E1 & E2). unfold again, back. cbn [leaf_marshal leaf_unmarshal]. rewrite E1, E2, E2. reflexivity.
  - rewrite !E. reflexivity.
Qed.

Lemma message_named_changed f m : message_named m -> message_named (message_changed f m).
Proof.
  destruct m; cbn [message_named message_changed]; auto. intros H.
  change (ProfileResponse_MessageSetList (ProfileResponse_of (changed f ProfileResponse_ty (ProfileResponse_to r))))
    with (map MessageSet_of (map (fun x : str * interp_flds MessageSet_fields => (fst x, changed_flds f MessageSet_fields (snd x))) (map MessageSet_to (ProfileResponse_MessageSetList r)))).
  rewrite !map_map, Forall_map. revert H. apply Forall_impl. intros x. exact (fun H => H).
Qed.

Lemma response_named_changed f r : response_named r -> response_named (response_changed f r).
Proof.
  intros H set ms m Hin Hm.
  assert (G : exists ms', In (set, ms') (response_sets (rs_slots r)) /\ ms = map (message_changed f) ms').
  { clear - Hin. change (rs_slots (response_changed f r)) with (rs_slots (response_changed f r)) in Hin. unfold response_sets in *.
    cbn [In response_changed rs_slots Document.sl_signup Document.sl_bank Document.sl_creditcard Document.sl_loan Document.sl_invstmt
      Document.sl_interxfer Document.sl_wirexfer Document.sl_billpay Document.sl_email Document.sl_seclist Document.sl_presdir Document.sl_presdlv Document.sl_prof Document.sl_image] in Hin.
    repeat (destruct Hin as [Hin|Hin]; [injection Hin as <- <-; eexists; split; [repeat first [left; reflexivity | right]|reflexivity]|]). destruct Hin. }
  destruct G as (ms' & Hin' & ->). apply in_map_iff in Hm as (m' & <- & Hm'). apply message_named_changed. exact (H set ms' m' Hin' Hm').
Qed.

Theorem responses_settle e s r : env_currency e (bs "XXX") = true -> zone_named e ->
  parse_response e s = (Some r, None) -> response_named r ->
  let r1 := response_changed (again e) r in
  let r2 := response_changed (again e) r1 in
  response_valid r1 = None -> response_valid r2 = None ->
  exists b b1 b2, response_marshal r = Some b /\ response_marshal r1 = Some b1 /\ response_marshal r2 = Some b2 /\
    forall rest, parse_response e (b ++ rest) = (Some r1, None) /\ parse_response e (b1 ++ rest) = (Some r2, None) /\
      parse_response e (b2 ++ rest) = (Some r2, None).
Proof.
  intros He Hz Hp Hn r1 r2 V1 V2. pose proof (zone_named_zone e Hz) as Hz'.
  assert (K : forall x b y, (forall rest, decode_response e (b ++ rest) = Some (response_changed (again e) x)) ->
    response_changed (again e) x = y -> response_valid y = None -> forall rest, parse_response e (b ++ rest) = (Some y, None)).
  { intros x b y H E V rest. unfold parse_response. rewrite H, E, V. reflexivity. }
  destruct (read_again e s r He Hz' Hp Hn) as (b & Eb & Db & _).
  pose proof (K r b r1 Db eq_refl V1) as P1.
  destruct (read_again e (b ++ []) r1 He Hz' (P1 []) (response_named_changed _ _ Hn)) as (b1 & Eb1 & Db1 & _).
  pose proof (K r1 b1 r2 Db1 eq_refl V2) as P2.
  destruct (read_again e (b1 ++ []) r2 He Hz' (P2 []) (response_named_changed _ _ (response_named_changed _ _ Hn))) as (b2 & Eb2 & Db2 & _).
  assert (E : response_changed (again e) r2 = r2).
  { unfold r2, r1. rewrite !response_comp. apply response_ext.
    unfold parse_response in Hp. destruct (decode_response e s) as [r'|] eqn:Ed; [|discriminate]. injection Hp as -> _.
    destruct (decoded_fields e s r He Ed) as (Hf & _).
    exact (response_enums _ _ r (fun l v Hw => leaf_settles e l v Hz Hw) (response_both _ _ r Hf (decoded_from e s r Ed))). }
  exists b, b1, b2. repeat (split; [assumption|]). intros rest. split; [apply P1|]. split; [apply P2|].
  exact (K r2 b2 r2 Db2 E V2 rest).
Qed.
