(** A response that is written and read. *)
From Coq Require Import QArith Lia Bool.
From Coq Require Import List.
From Verif Require Import GoStr SpecStr SpecNum SpecDate GoStrFacts GoNum GoNumFacts GoRat GoTime
  Types Enums EnumTables Records Common Messages Codec CodecFacts CodecSim
  SpecCodec Schema Document SpecDocument DocumentFacts SetsFacts SpecXml Utf8 Xml XmlFacts SpellFacts LexFacts Leaves SpecWire FormFacts SimFacts HeaderFacts WrittenHeaderFacts Wire WireFacts ClosureDocs SpecDecode SpecHeader Headers SpecAgain AgainFacts.
Close Scope Q_scope.

Lemma readable_at_all e :
  (forall t nm v, names_ok t nm = true -> every (readable e) t v -> at_ok e t nm v) /\
  (forall fs v, names_ok_flds fs = true -> every_field (readable e) fs v -> at_flds e fs v) /\
  (forall a v, names_ok_alts a = true -> every_alt (readable e) a v -> at_alt e a v).
Proof.
  apply schema_ind.
  - intros l nm v _ H. exact H.
  - intros x fs IH nm v Hn H. cbn [at_ok every names_ok] in *.
    apply andb_true_iff in Hn as [Hx Hn]. split; [|apply IH; assumption].
    destruct x as [|c x]; [left; auto|]. right. apply str_eqb_eq. exact Hx.
  - intros t IH nm v Hn H. destruct v as [v|]; cbn [at_ok every] in *; auto.
  - intros t IH nm v Hn H. cbn [at_ok every names_ok] in *.
    eapply Forall_impl; [|exact H]. intros a Ha. apply IH; assumption.
  - intros x fs IH nm v Hn H. cbn [at_ok every names_ok] in *.
    apply andb_true_iff in Hn as [Hx Hn]. split; [apply str_eqb_eq; exact Hx|apply IH; assumption].
  - intros a IH nm v Hn H. cbn [at_ok every names_ok] in *.
    eapply Forall_impl; [|exact H]. intros y Hy. apply IH; assumption.
  - intros x a IH nm v Hn H. cbn [at_ok every names_ok] in *.
    apply andb_true_iff in Hn as [Hx Hn]. split; [apply str_eqb_eq; exact Hx|].
    eapply Forall_impl; [|exact H]. intros y Hy. apply IH; assumption.
  - intros fs IH nm v Hn H. cbn [at_ok every names_ok] in *.
    apply andb_true_iff in Hn as [Hx Hn]. split; [apply str_eqb_eq; exact Hx|].
    eapply Forall_impl; [|exact H]. intros y Hy. apply IH; assumption.
  - intros; exact I.
  - intros ps nm om t IHt fs IHfs v Hn H.
    cbn [at_flds every_field names_ok_flds] in *. apply andb_true_iff in Hn as [Hn1 Hn2].
    destruct H as [H1 H2]. split; [apply IHt | apply IHfs]; assumption.
  - intros; exact I.
  - intros rd wr t IHt a IHa v Hn H.
    cbn [at_alt every_alt names_ok_alts] in *. apply andb_true_iff in Hn as [Hn1 Hn2].
    destruct v; [apply IHt | apply IHa]; assumption.
Qed.

Lemma readable_at e t nm v : names_ok t nm = true -> every (readable e) t v -> at_ok e t nm v.
Proof. apply readable_at_all. Qed.

Lemma top_again e t v nodes :
  negb (null (top_name t)) && wf_ty t false = true ->
  at_ok e t (top_name t) v -> encode_as t v = Some nodes ->
  exists k, nodes = [Elem (top_name t) k] /\ unmarshal e t (Elem (top_name t) k) (zero t) = Some (changed (again e) t v).
Proof.
  intros H Hrt E. apply andb_true_iff in H as [H1 H2].
  assert (Hn : top_name t <> []) by (destruct (top_name t); [discriminate | congruence]).
  destruct (top_marshal t v Hn) as [E1 E2]. destruct (E2 _ E) as [k ->]. exists k. split; [reflexivity|].
  rewrite E1 in E. destruct again_all as [R _]. destruct (R t) as [R' _].
  destruct (R' e false (top_name t) false v _ H2 Hrt E) as [_ R2].
  cbn [map run_all] in R2. destruct (unmarshal e t (Elem (top_name t) k) (zero t)); [|discriminate].
  exact R2.
Qed.

Lemma at_flds_step e ps nm om t fs v :
  names_ok t nm = true ->
  (every_field (readable e) fs (snd v) -> at_flds e fs (snd v)) ->
  every_field (readable e) (FCons ps nm om t fs) v -> at_flds e (FCons ps nm om t fs) v.
Proof.
  intros H1 H2 [H3 H4]. cbn [at_flds]. split; [apply readable_at; assumption | auto].
Qed.

Ltac at_step := apply at_flds_step; [vm_compute; reflexivity|].

Lemma inv401k_at e v : Inv401K_LoanInfo v = [] -> every (readable e) Inv401K_ty (Inv401K_to v) ->
  at_ok e Inv401K_ty (bs "INV401K") (Inv401K_to v).
Proof.
  intros Hl. unfold Inv401K_ty. cbn [every at_ok]. intros H. split; [right; reflexivity|]. revert H.
  unfold Inv401K_to. rewrite Hl. generalize (Inv401K_EmployerName v). unfold Inv401K_fields. intros n.
  do 16 at_step. cbn [snd map].
  intros [_ H]. split; [constructor|]. revert H. cbn [snd].
  do 3 at_step. intros _. exact I.
Qed.

Lemma invstmt_at e r : every (readable e) InvStatementResponse_ty (InvStatementResponse_to r) -> no_loans r ->
  at_ok e InvStatementResponse_ty (bs "INVSTMTTRNRS") (InvStatementResponse_to r).
Proof.
  intros H Hno. unfold InvStatementResponse_ty in *. cbn [every at_ok] in *.
  split; [right; reflexivity|]. revert H. unfold InvStatementResponse_to, InvStatementResponse_fields.
  do 11 at_step. cbn [snd].
  intros [H1 H2]. cbn [fst snd] in *. split.
  - cbn [fst]. destruct (InvStatementResponse_Inv401K r) as [k|] eqn:E; [|exact I].
    cbn [option_map every at_ok] in *. apply inv401k_at; auto.
  - revert H2. cbn [snd]. at_step. intros _. exact I.
Qed.

Lemma message_again e m nodes : message_every (readable e) m -> loanless m -> snd (message_type m) = Rs ->
  encode_message m = Some nodes ->
  exists k, nodes = [Elem (message_name m) k] /\
            decode_message e (fst (message_type m)) (Elem (message_name m) k) = Some (message_changed (again e) m).
Proof.
  intros Hr Hl Hd E.
  destruct m; try discriminate Hd; clear Hd; cbn [encode_message message_name message_type fst message_every loanless message_changed] in *;
  (match type of E with encode_as ?t ?v = _ =>
    let Hw := fresh in
    assert (Hw : negb (null (top_name t)) && wf_ty t false = true) by (vm_compute; reflexivity);
    let Hrt := fresh in
    assert (Hrt : at_ok e t (top_name t) v)
      by (first [apply readable_at; [vm_compute; reflexivity | exact Hr]
                | apply invstmt_at; assumption]);
    let k := fresh "k" in
    destruct (top_again e t v nodes Hw Hrt E) as (k & -> & Hu); clear Hw Hrt E;
    exists k; split; [reflexivity|]
  end);
  unfold decode_message; rewrite ?str_eqb_refl;
  try (match goal with |- context [str_eqb (bs "SECLIST") (bs "SECLISTTRNRS")] =>
         change (str_eqb (bs "SECLIST") (bs "SECLISTTRNRS")) with false end; cbv iota);
  (etransitivity; [apply f_equal; exact Hu|]); reflexivity.
Qed.

Lemma sets_again e tbl ns :
  (forall set ms m, In (set, ms) tbl -> In m ms -> (message_every (readable e) m /\ loanless m) /\
     exists t, In t body_sets /\ message_type m = (t, Rs) /\ set = msgtype_string (t, Rs)) ->
  sets_written encodes tbl ns ->
  Forall (good_set e) ns /\
  forall t, In t body_sets ->
    Forall2 (fun m n => decode_message e t n = Some m)
      (map (message_changed (again e)) (flat_map snd (filter (fun p => str_eqb (fst p) (msgtype_string (t, Rs))) tbl)))
      (filed_under (msgtype_string (t, Rs)) ns).
Proof.
  intros Hall H. induction H as [|set tbl ns H IH|set ms kids tbl ns Hne HF H IH].
  - split; [constructor|]. intros; constructor.
  - destruct IH as [H1 H2].
    { intros s m x Hi Hx. apply (Hall s m x); [right; exact Hi | exact Hx]. }
    split; [exact H1|]. intros t Ht. cbn [filter fst]. destruct (str_eqb set _); cbn [flat_map snd app]; auto.
  - destruct IH as [H1 H2].
    { intros s m x Hi Hx. apply (Hall s m x); [right; exact Hi | exact Hx]. }
    assert (Hset : exists t, In t body_sets /\ set = msgtype_string (t, Rs)).
    { destruct ms as [|m ms]; [congruence|].
      destruct (Hall set (m :: ms) m) as (_ & t & Ht & _ & ->); [left; auto | left; auto | eauto]. }
    destruct Hset as (t & Ht & ->).
    assert (HD : Forall2 (fun m n => decode_message e t n = Some m) (map (message_changed (again e)) ms) kids /\ solid kids = kids).
    { assert (Hms : forall m, In m ms -> (message_every (readable e) m /\ loanless m) /\ message_type m = (t, Rs)).
      { intros m Hm. destruct (Hall _ ms m (or_introl eq_refl) Hm) as (Hr & t' & _ & Et & Es).
        split; [exact Hr|]. apply msgtype_string_inj in Es. congruence. }
      clear - HF Hms. induction HF as [|m n ms kids Hmn HF IH]; [split; [constructor|reflexivity]|].
      destruct IH as [I1 I2]; [intros x Hx; apply Hms; right; exact Hx|].
      destruct (Hms m (or_introl eq_refl)) as [[Hr Hl] Ht]. unfold encodes in Hmn.
      assert (Hrs : snd (message_type m) = Rs) by (rewrite Ht; reflexivity).
      rewrite (sent_response m Hrs) in Hmn.
      destruct (message_again e m _ Hr Hl Hrs Hmn) as (k & Ek & Hd). injection Ek as ->.
      rewrite Ht in Hd. cbn [fst] in Hd. split; [constructor; assumption|].
      cbn [solid filter]. f_equal. exact I2. }
    destruct HD as [HD Hsol]. split.
    + constructor; [|exact H1]. exists t, kids. split; [reflexivity|]. split; [exact Ht|]. rewrite Hsol.
      clear - HD. induction HD; constructor; auto. rewrite H. discriminate.
    + intros t' Ht'. cbn [filter fst filed_under flat_map].
      fold (filed_under (msgtype_string (t', Rs)) ns).
      destruct (str_eqb (msgtype_string (t, Rs)) (msgtype_string (t', Rs))) eqn:E; [|exact (H2 t' Ht')].
      apply str_eqb_eq, msgtype_string_inj in E. assert (t = t') as <- by congruence.
      cbn [flat_map snd]. rewrite Hsol, map_app. apply Forall2_app; auto.
Qed.

Lemma document_again e r t : response_every (readable e) r ->
  (forall set ms m, In (set, ms) (response_sets (rs_slots r)) -> In m ms -> loanless m) -> response_tree r = Some t ->
  decode_ofx e (rs_version r) t = Some (response_changed (again e) r).
Proof.
  intros [Hsr Hmr] Hln E.
  assert (Hacc : slots_acceptable (rs_version r) (response_sets (rs_slots r))).
  { apply (response_tree_iff r). rewrite E. discriminate. }
  destruct (response_tree_spec r t E) as (k & ns & -> & Es & HW).
  assert (Hall : forall set ms m, In (set, ms) (response_sets (rs_slots r)) -> In m ms ->
     (message_every (readable e) m /\ loanless m) /\
     exists t, In t body_sets /\ message_type m = (t, Rs) /\ set = msgtype_string (t, Rs)).
  { intros set ms m Hin Hm. split; [split; [eapply Hmr; eauto|exact (Hln _ _ _ Hin Hm)]|].
    destruct (Hacc set ms m Hin Hm) as (Hb & _ & _).
    assert (Hset : exists t, In t body_sets /\ set = msgtype_string (t, Rs)).
    { clear - Hin. unfold response_sets in Hin. cbn [In] in Hin.
      decompose [or] Hin; try contradiction;
        match goal with H : (?x, _) = (set, _) |- _ => injection H as <- _ end;
        [exists MSignup | exists MBank | exists MCreditCard | exists MLoan | exists MInvStmt
        | exists MInterXfer | exists MWireXfer | exists MBillpay | exists MEmail | exists MSecList
        | exists MPresDir | exists MPresDlv | exists MProf | exists MImage];
        (split; [cbv; tauto | reflexivity]). }
    destruct Hset as (t & Ht & ->). exists t. split; [exact Ht|]. split; [|reflexivity].
    rewrite belongs_in_type in Hb. apply msgtype_string_inj. exact Hb. }
  destruct (sets_again e _ _ Hall HW) as [HG HD].
  assert (Hw : negb (null (top_name SignonResponse_ty)) && wf_ty SignonResponse_ty false = true)
    by (vm_compute; reflexivity).
  assert (Hrt : at_ok e SignonResponse_ty (top_name SignonResponse_ty) (SignonResponse_to (rs_signon r)))
    by (apply readable_at; [vm_compute; reflexivity | exact Hsr]).
  destruct (top_again e SignonResponse_ty _ _ Hw Hrt Es) as (k' & Ek & Hu).
  injection Ek as <-. clear Hw Hrt Es.
  assert (Hsol : solid ns = ns).
  { apply solid_elems. eapply Forall_impl; [|exact HG]. intros n (x & y & -> & _). eauto. }
  assert (Hsome : exists s, decode_sets e ns no_messages = Some s)
    by (apply some_ex, decode_sets_some; exact HG).
  destruct Hsome as [s Hs].
  assert (Hslots : s = rs_slots (response_changed (again e) r)).
  { apply slots_eq. intros set Hset. destruct (decode_sets_spec e ns no_messages s Hs) as [_ HS].
    destruct (HS set Hset) as (ms & E1 & E2). rewrite E1.
    assert (slot set no_messages = []) as -> by (destruct set; reflexivity). cbn [app].
    transitivity (map (message_changed (again e)) (slot set (rs_slots r))); [|destruct set; reflexivity].
    rewrite <- (slot_filter (rs_slots r) set Hset).
    eapply Forall2_fun; [exact E2 | apply HD; exact Hset]. }
  subst s. unfold decode_ofx. rewrite str_eqb_refl. cbn [negb].
  change (solid (Elem (bs "SIGNONMSGSRSV1") [Elem (bs "SONRS") k] :: ns))
    with (Elem (bs "SIGNONMSGSRSV1") [Elem (bs "SONRS") k] :: solid ns).
  rewrite Hsol. change (str_eqb (bs "SIGNONMSGSRSV1") (msgtype_string (MSignon, Rs))) with true.
  cbn [negb first_elem solid filter null].
  change (Elem (bs "SONRS") k) with (Elem (top_name SignonResponse_ty) k).
  rewrite Hu. cbn [bind]. rewrite Hs. cbn [bind]. reflexivity.
Qed.

Theorem response_again e r s rest :
  response_every (readable e) r -> response_clean r -> known_version (rs_version r) ->
  (forall set ms m, In (set, ms) (response_sets (rs_slots r)) -> In m ms -> loanless m) ->
  response_marshal r = Some s -> decode_response e (s ++ rest) = Some (response_changed (again e) r).
Proof.
  intros Hr Hc Hv Hl Hm. unfold response_marshal in Hm.
  destruct (response_tree r) as [t|] eqn:Et; [|discriminate]. cbn [bind] in Hm.
  destruct (known_header (rs_version r) false Hv) as [h Hh]. unfold header_or_nothing in Hm. rewrite Hh in Hm.
  apply Some_inj in Hm. subst s.
  destruct (response_doc r t Hc Et) as (k & -> & Hk & Hd).
  destruct (read_printed_clean (rs_version r) false h (mkStyle true false []) rest k Hv Hh (or_introl eq_refl) Hk Hd) as (n & E & Hn).
  unfold decode_response. rewrite <- app_assoc, E. cbn [bind fst snd].
  rewrite <- (sim_decode_ofx e (rs_version r) _ _ (proj1 same_tree_sim _ _ Hn)).
  exact (document_again e r _ Hr Hl Et).
Qed.
