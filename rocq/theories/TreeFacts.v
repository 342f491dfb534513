(** Properties of the written documents: routing of profile requests, repeated
    marshalling, loans of 401(k) accounts. *)
From Coq Require Import QArith FinFun.
From Verif Require Import GoStr GoStrFacts GoTime Types Enums EnumTables Records Common Messages Codec CodecFacts SpecCodec Schema
  Document SpecDocument DocumentFacts SetsFacts FilingFacts.
Close Scope Q_scope.

(** ** Routing *)

Definition routing_path : list str := map bs ["PROFMSGSRQV1"; "PROFTRNRQ"; "PROFRQ"; "CLIENTROUTING"]%string.
Definition routing_none : node := Elem (bs "CLIENTROUTING") [Text (bs "NONE")].

Lemma profile_request_routing r n :
  encode_message (sent (MsgProfileRequest r)) = Some [n] ->
  (exists k, n = Elem (bs "PROFTRNRQ") k) /\
  descend [bs "PROFRQ"; bs "CLIENTROUTING"] n = [routing_none].
Proof.
  destruct r as [u c t cr d]. cbn [sent encode_message]. unfold encode_as, ProfileRequest_ty, ProfileRequest_to.
  cbn [ProfileRequest_TrnUID ProfileRequest_CltCookie ProfileRequest_TAN ProfileRequest_ClientRouting ProfileRequest_DtProfUp].
  unfold ProfileRequest_fields.
  cbn [marshal struct_cmds fst snd bind andb leaf_marshal is_nil common_prefix length].
  unfold string_marshal. 
  destruct (leaf_empty LString c); destruct (leaf_empty LString t); cbn [andb bind];
  intros H; injection H as <-; (split; [eexists; reflexivity | reflexivity]).
Qed.

Lemma descend_cons nm path x k :
  descend (nm :: path) (Elem x k) = flat_map (descend path) (filter (fun k => match k with Elem x _ => str_eqb x nm | _ => false end) k).
Proof. reflexivity. Qed.

Lemma sets_written_child w tbl ns nm ms : sets_written w tbl ns ->
  NoDup (map fst tbl) -> In (nm, ms) tbl ->
  (ms = [] /\ filter (fun k => match k with Elem x _ => str_eqb x nm | _ => false end) ns = []) \/
  exists kids, Forall2 w ms kids /\ filter (fun k => match k with Elem x _ => str_eqb x nm | _ => false end) ns = [Elem nm kids].
Proof.
  assert (Hout : forall tbl ns, sets_written w tbl ns -> ~ In nm (map fst tbl) ->
    filter (fun k => match k with Elem x _ => str_eqb x nm | _ => false end) ns = []).
  { induction 1 as [|set tbl0 ns0 _ IH|set ms0 kids tbl0 ns0 _ _ _ IH]; cbn [map fst In]; intros Hn.
    - reflexivity.
    - apply IH. tauto.
    - cbn [filter]. destruct (str_eqb set nm) eqn:E; [apply str_eqb_eq in E; tauto|]. apply IH. tauto. }
  induction 1 as [|set tbl ns HW IH|set ms0 kids tbl ns Hne HF HW IH]; cbn [map fst In]; intros Hd Hin.
  - destruct Hin.
  - apply NoDup_cons_iff in Hd as [Hd1 Hd2]. destruct Hin as [E|Hin].
    + injection E as <- <-. left. split; [reflexivity|]. apply (Hout _ _ HW Hd1).
    + exact (IH Hd2 Hin).
  - apply NoDup_cons_iff in Hd as [Hd1 Hd2]. destruct Hin as [E|Hin].
    + injection E as <- <-. right. exists kids. split; [exact HF|]. cbn [filter]. rewrite str_eqb_refl.
      rewrite (Hout _ _ HW Hd1). reflexivity.
    + cbn [filter]. destruct (str_eqb set nm) eqn:E; [|exact (IH Hd2 Hin)].
      exfalso. apply str_eqb_eq in E; subst set. apply Hd1. apply in_map_iff. exists (nm, ms). auto.
Qed.

Lemma request_names_nodup s : NoDup (map fst (request_sets s)).
Proof.
  rewrite <- request_table. unfold named_table. rewrite map_map. cbn [fst].
  assert (H : NoDup (map (fun t => msgtype_string t)
    (map (fun s => (s, Rq)) body_sets))).
  { apply Injective_map_NoDup; [intros a b E; apply msgtype_string_inj; exact E|].
    unfold body_sets. cbn [map]. repeat constructor; cbn; intuition discriminate. }
  exact H.
Qed.

Theorem request_routing q t q' : request_tree q = Some (t, q') ->
  descend routing_path t = map (fun _ => routing_none) (sl_prof (rq_slots q)).
Proof.
  intros H. pose proof H as H0. destruct (request_tree_spec q t q' H) as (_ & k & ns & -> & _ & HW).
  assert (Hacc : slots_acceptable (rq_version q) (request_sets (rq_slots q))).
  { apply request_tree_iff. rewrite H0. discriminate. }
  assert (Hin : In (bs "PROFMSGSRQV1", sl_prof (rq_slots q)) (request_sets (rq_slots q))) by (cbn; tauto).
  pose proof (fun m => Hacc _ _ m Hin) as Hprof.
  unfold routing_path. cbn [map]. rewrite descend_cons. cbn [filter].
  replace (str_eqb (bs "SIGNONMSGSRQV1") (bs "PROFMSGSRQV1")) with false by reflexivity.
  destruct (sets_written_child _ _ _ _ _ HW (request_names_nodup _) Hin) as [[E1 E2]|(kids & HF & E2)]; rewrite E2.
  - rewrite E1. reflexivity.
  - cbn [flat_map]. rewrite app_nil_r, descend_cons. clear - HF Hprof.
    induction HF as [|m n ms ns Hm _ IH]; [reflexivity|].
    destruct (Hprof m (or_introl eq_refl)) as (Hb & _).
    assert (Hm' : exists r, m = MsgProfileRequest r).
    { destruct m; cbn in Hb; try discriminate Hb. eauto. }
    destruct Hm' as [r ->]. destruct (profile_request_routing r n Hm) as [[k ->] E].
    cbn [filter]. rewrite str_eqb_refl. cbn [flat_map]. rewrite E. cbn [map app]. f_equal.
    apply IH. intros m Hin. apply Hprof. right. exact Hin.
Qed.

(** ** Marshalling twice *)

Lemma sent_sent m : sent (sent m) = sent m.
Proof. destruct m; reflexivity. Qed.

Lemma sent_valid m v m' : message_valid m v = (m', None) -> message_valid (sent m) v = (sent m, None).
Proof.
  intros H. destruct m; try (cbn [message_valid sent] in *; reflexivity);
    try (cbn [message_valid sent] in *; injection H as _ H; rewrite H; reflexivity).
  cbn [message_valid sent] in *. unfold profile_request_valid in *. cbn [ProfileRequest_TrnUID].
  destruct (uid_validity (ProfileRequest_TrnUID r)); [discriminate H | reflexivity].
Qed.

Lemma encode_messages_again ms set version r :
  encode_messages ms set version = Some r -> encode_messages (snd r) set version = Some r.
Proof.
  revert r. induction ms as [|m ms IH]; intros r H; cbn [encode_messages] in H.
  - injection H as <-. reflexivity.
  - destruct (msgtype_eqb (message_type m) set) eqn:Et; [|discriminate H]. cbn [negb] in H.
    destruct (message_valid m version) as [m' [err|]] eqn:Ev; [discriminate H|].
    pose proof (message_valid_sent _ _ _ Ev) as Em. subst m'.
    destruct (encode_message (sent m)) as [a|] eqn:Ea; [|discriminate H]. cbn [bind] in H.
    destruct (encode_messages ms set version) as [r0|] eqn:Er; [|discriminate H]. cbn [bind] in H. injection H as <-.
    cbn [snd encode_messages]. 
    replace (message_type (sent m)) with (message_type m) by (destruct m; reflexivity).
    rewrite Et. cbn [negb]. rewrite (sent_valid _ _ _ Ev), Ea. cbn [bind]. rewrite (IH _ eq_refl). reflexivity.
Qed.

Lemma encode_set_again ms set version r :
  encode_set ms set version = Some r -> encode_set (snd r) set version = Some r.
Proof.
  unfold encode_set. destruct ms as [|m ms]; cbn [null].
  - intros H. injection H as <-. reflexivity.
  - destruct (encode_messages (m :: ms) set version) as [[a b]|] eqn:E; [|discriminate]. cbn [bind fst snd].
    intros H. injection H as <-. cbn [snd]. pose proof (encode_messages_again _ _ _ _ E) as E'. cbn [snd] in E'.
    destruct b as [|m' b'].
    + destruct (encode_messages_spec _ _ _ _ _ E) as [Hb _]. discriminate Hb.
    + cbn [null]. rewrite E'. reflexivity.
Qed.

Lemma encode_sets_again tbl version : forall r, encode_sets tbl version = Some r ->
  encode_sets (combine (snd r) (map snd tbl)) version = Some r.
Proof.
  induction tbl as [|[ms t] tbl IH]; intros r H; cbn [encode_sets] in H.
  - injection H as <-. reflexivity.
  - destruct (encode_set ms t version) as [a|] eqn:Ea; [|discriminate H]. cbn [bind] in H.
    destruct (encode_sets tbl version) as [r0|] eqn:Er; [|discriminate H]. cbn [bind] in H. injection H as <-.
    cbn [snd map combine encode_sets]. rewrite (encode_set_again _ _ _ _ Ea). cbn [bind]. rewrite (IH _ eq_refl). reflexivity.
Qed.

Lemma signon_again r r' : signon_request_valid r = (r', None) -> signon_request_valid r' = (r', None).
Proof.
  unfold signon_request_valid. cbv zeta.
  destruct ((length (SignonRequest_UserID r) <? 1) || (32 <? length (SignonRequest_UserID r)))%nat eqn:E1; [discriminate|].
  destruct (Bool.eqb (empty (SignonRequest_UserPass r)) (empty (SignonRequest_UserKey r))) eqn:E2; [discriminate|].
  destruct (32 <? length (SignonRequest_UserPass r))%nat eqn:E3; [discriminate|].
  destruct (64 <? length (SignonRequest_UserKey r))%nat eqn:E4; [discriminate|].
  destruct (negb (empty (SignonRequest_Language r)) && negb (Nat.eqb (length (SignonRequest_Language r)) 3))%bool eqn:E5; [discriminate|].
  destruct (empty (SignonRequest_Language r)) eqn:E6.
  - cbn [SignonRequest_AppID SignonRequest_AppVer].
    destruct ((length (SignonRequest_AppID r) <? 1) || (5 <? length (SignonRequest_AppID r)))%nat eqn:E7; [discriminate|].
    destruct ((length (SignonRequest_AppVer r) <? 1) || (4 <? length (SignonRequest_AppVer r)))%nat eqn:E8; [discriminate|].
    intros H. apply (f_equal fst) in H. cbn [fst] in H. subst r'. cbn [SignonRequest_UserID SignonRequest_UserPass SignonRequest_UserKey SignonRequest_Language SignonRequest_AppID SignonRequest_AppVer].
    rewrite E1, E2, E3, E4.
    replace (negb (empty (bs "ENG")) && negb (Nat.eqb (length (bs "ENG")) 3))%bool with false by reflexivity.
    replace (empty (bs "ENG")) with false by reflexivity. cbn [SignonRequest_AppID SignonRequest_AppVer]. rewrite E7, E8. reflexivity.
  - destruct ((length (SignonRequest_AppID r) <? 1) || (5 <? length (SignonRequest_AppID r)))%nat eqn:E7; [discriminate|].
    destruct ((length (SignonRequest_AppVer r) <? 1) || (4 <? length (SignonRequest_AppVer r)))%nat eqn:E8; [discriminate|].
    intros H. injection H as <-. rewrite E1, E2, E3, E4, E6, E5, E7, E8. reflexivity.
Qed.

Theorem request_tree_again q t q' : request_tree q = Some (t, q') -> request_tree q' = Some (t, q').
Proof.
  unfold request_tree. destruct (signon_request_valid (rq_signon q)) as [sn [err|]] eqn:Es; [discriminate|].
  destruct (encode_as SignonRequest_ty (SignonRequest_to sn)) as [s|] eqn:Ee; [|discriminate]. cbn [bind].
  destruct (encode_sets (set_table (rq_slots q) Rq) (rq_version q)) as [[nodes lists]|] eqn:E; [|discriminate].
  cbn [bind fst snd]. intros H. injection H as <- <-. cbn [rq_signon rq_slots rq_version rq_url rq_indent rq_cr].
  rewrite (signon_again _ _ Es), Ee. cbn [bind].
  pose proof (encode_sets_again _ _ _ E) as E'. cbn [snd] in E'.
  destruct (encode_sets_spec _ _ _ _ E) as [El _]. 
  assert (Ec : set_table (slots_of_list lists) Rq = combine lists (map snd (set_table (rq_slots q) Rq))).
  { rewrite El. reflexivity. }
  rewrite Ec, E'. cbn [bind fst snd]. reflexivity.
Qed.

(** ** Loans of 401(k) accounts *)

Lemma run_all_none {A} (fs : list (A -> option A)) f v : In f fs -> (forall v, f v = None) -> run_all fs v = None.
Proof.
  intros Hin Hf. revert v. induction fs as [|g fs IH]; [destruct Hin|]. intros v. destruct Hin as [->|Hin]; cbn [run_all].
  - rewrite Hf. reflexivity.
  - destruct (g v); [exact (IH Hin _) | reflexivity].
Qed.

Lemma found_hit {A B} (f : A -> B) m : m = Hit None -> found_map f m = Hit None.
Proof. intros ->. reflexivity. Qed.

Lemma match_here ps n om t fs parents nm k v :
  strip_prefix parents ps = Some [] -> str_eqb n nm = true -> (forall v, k t v = None) ->
  match_fields (FCons ps n om t fs) parents nm k v = Hit None.
Proof. intros E1 E2 E3. cbn [match_fields]. rewrite E1, E2, E3. reflexivity. Qed.

Lemma match_skip ps n om t fs parents nm k (v : interp t * interp_flds fs) :
  match strip_prefix parents ps with None => true | Some [] => negb (str_eqb n nm) | Some (p :: _) => negb (str_eqb p nm) end = true ->
  match_fields fs parents nm k (snd v) = Hit None ->
  match_fields (FCons ps n om t fs) parents nm k v = Hit None.
Proof.
  intros E1 E2. destruct v as [x w]. cbn [match_fields fst snd] in *. rewrite E2. cbn [found_map option_map].
  destruct (strip_prefix parents ps) as [[|p l]|]; [| |reflexivity].
  - destruct (str_eqb n nm); [discriminate | reflexivity].
  - destruct (str_eqb p nm); [discriminate | reflexivity].
Qed.

Lemma loaninfo_fails e k : forall v, d_walk (decode e (Elem (bs "LOANINFO") k)) Inv401K_fields [] v = None.
Proof.
  intros v. cbn [decode d_walk].
  match goal with |- match match_fields ?fs ?ps ?nm ?dec ?v with _ => _ end = _ =>
    assert (E : match_fields fs ps nm dec v = Hit None) end.
  { unfold Inv401K_fields. repeat (apply match_skip; [reflexivity|]).
    apply match_here; [reflexivity | reflexivity|]. intros w. reflexivity. }
  rewrite E. reflexivity.
Qed.

Lemma in_decoders {A} e (f : decoders -> A) n kids : In n kids ->
  In (f (decode e n)) (map (fun d => f (snd d)) (map (fun k => (k, decode e k)) kids)).
Proof. intros H. rewrite map_map. cbn [snd]. apply in_map_iff. exists n. auto. Qed.

Lemma inv401k_fails e nm kids k v : In (Elem (bs "LOANINFO") k) kids ->
  unmarshal e Inv401K_ty (Elem nm kids) v = None.
Proof.
  intros H. unfold unmarshal, Inv401K_ty. cbn [decode d_value value_decoder].
  match goal with |- (if ?b then _ else _) = _ => destruct b; [reflexivity|] end.
  eapply run_all_none; [apply (in_decoders e (fun d => d_walk d Inv401K_fields []) _ _ H)|].
  apply loaninfo_fails.
Qed.

Lemma inv401k_walk e kids k : In (Elem (bs "LOANINFO") k) kids ->
  forall v, d_walk (decode e (Elem (bs "INV401K") kids)) InvStatementResponse_fields [bs "INVSTMTRS"] v = None.
Proof.
  intros H v. pose proof (fun v => inv401k_fails e (bs "INV401K") kids k v H) as Hf. unfold unmarshal in Hf.
  cbn [decode d_walk d_value] in *.
  match goal with |- match match_fields ?fs ?ps ?nm ?dec ?v with _ => _ end = _ =>
    assert (E : match_fields fs ps nm dec v = Hit None) end.
  { unfold InvStatementResponse_fields. repeat (apply match_skip; [reflexivity|]).
    apply match_here; [reflexivity | reflexivity|]. intros w.
    change (option_map Some (value_decoder e (bs "INV401K") kids (map (fun k => (k, decode e k)) kids) Inv401K_ty (match w with Some v => v | None => zero Inv401K_ty end)) = None).
    rewrite Hf. reflexivity. }
  rewrite E. reflexivity.
Qed.

Lemma invstmtrs_walk e kids kids' k : In (Elem (bs "INV401K") kids) kids' -> In (Elem (bs "LOANINFO") k) kids ->
  forall v, d_walk (decode e (Elem (bs "INVSTMTRS") kids')) InvStatementResponse_fields [] v = None.
Proof.
  intros H1 H2 v. cbn [decode d_walk].
  match goal with |- match match_fields ?fs ?ps ?nm ?dec ?v with _ => _ end = _ =>
    assert (E : match_fields fs ps nm dec v = Prefix) by reflexivity end.
  rewrite E. eapply run_all_none; [apply (in_decoders e (fun d => d_walk d InvStatementResponse_fields ([] ++ [bs "INVSTMTRS"])) _ _ H1)|].
  exact (inv401k_walk e kids k H2).
Qed.

Definition loan_path : list str := map bs ["INVSTMTRS"; "INV401K"; "LOANINFO"]%string.

Lemma in_descend nm path n x : In x (descend (nm :: path) n) ->
  exists y kids sub, n = Elem y kids /\ In (Elem nm sub) kids /\ In x (descend path (Elem nm sub)).
Proof.
  destruct n as [y kids|s|]; [|contradiction|contradiction]. rewrite descend_cons, in_flat_map.
  intros (c & Hc & Hx). apply filter_In in Hc as [Hc Hb]. destruct c as [z sub|s|]; try discriminate Hb.
  apply str_eqb_eq in Hb. subst z. exists y, kids, sub. auto.
Qed.

Theorem loans_rejected e n v : descend loan_path n <> [] -> unmarshal e InvStatementResponse_ty n v = None.
Proof.
  intros H. destruct (descend loan_path n) as [|x l] eqn:E; [congruence|].
  assert (Hin : In x (descend loan_path n)) by (rewrite E; left; reflexivity). clear E H.
  unfold loan_path in Hin. cbn [map] in Hin.
  apply in_descend in Hin as (y & kids & s1 & -> & H1 & Hin).
  apply in_descend in Hin as (y1 & k1 & s2 & E1 & H2 & Hin). injection E1 as <- <-.
  apply in_descend in Hin as (y2 & k2 & s3 & E2 & H3 & _). injection E2 as <- <-.
  unfold unmarshal, InvStatementResponse_ty. cbn [decode d_value value_decoder].
  match goal with |- (if ?b then _ else _) = _ => destruct b; [reflexivity|] end.
  eapply run_all_none; [apply (in_decoders e (fun d => d_walk d InvStatementResponse_fields []) _ _ H1)|].
  eapply invstmtrs_walk; eassumption.
Qed.

Theorem loan_documents_rejected e v t :
  descend (map bs ["INVSTMTMSGSRSV1"; "INVSTMTTRNRS"]%string ++ loan_path) t <> [] -> decode_ofx e v t = None.
Proof.
  intros H. destruct (decode_ofx e v t) as [r|] eqn:E; [|reflexivity]. exfalso.
  apply decode_ofx_iff in E as (_ & kids & b & x & a & sets & -> & Es & _ & _ & _ & _ & _ & HF).
  match type of H with ?d <> [] => destruct d as [|y l] eqn:E; [congruence|] end. clear H.
  assert (Hin : In y (descend (map bs ["INVSTMTMSGSRSV1"; "INVSTMTTRNRS"]%string ++ loan_path) (Elem (bs "OFX") kids)))
    by (rewrite E; left; reflexivity). clear E.
  change (map bs ["INVSTMTMSGSRSV1"; "INVSTMTTRNRS"]%string ++ loan_path) with (bs "INVSTMTMSGSRSV1" :: bs "INVSTMTTRNRS" :: loan_path) in Hin.
  apply in_descend in Hin as (y1 & k1 & s1 & E1 & H1 & Hin). injection E1 as <- <-.
  apply in_descend in Hin as (y2 & k2 & s2 & E2 & H2 & Hin). injection E2 as <- <-.
  assert (Hs : In (Elem (bs "INVSTMTMSGSRSV1") s1) sets).
  { assert (Hk : In (Elem (bs "INVSTMTMSGSRSV1") s1) (solid kids)) by (apply filter_In; auto).
    rewrite Es in Hk. destruct Hk as [E|Hk]; [|exact Hk]. exfalso.
    assert (En : bs "SIGNONMSGSRSV1" = bs "INVSTMTMSGSRSV1") by congruence. discriminate En. }
  assert (Hf : In (Elem (bs "INVSTMTTRNRS") s2) (filed_under (bs "INVSTMTMSGSRSV1") sets)).
  { apply filed_incl. exists s1. split; [exact Hs|]. apply filter_In. auto. }
  assert (Hr : exists m, message_reads e (bs "INVSTMTMSGSRSV1") m (Elem (bs "INVSTMTTRNRS") s2)).
  { assert (HF' : Forall2 (message_reads e (bs "INVSTMTMSGSRSV1")) (sl_invstmt (rs_slots r)) (filed_under (bs "INVSTMTMSGSRSV1") sets))
      by (apply HF; cbn; tauto).
    clear - HF' Hf. induction HF' as [|m n ms ns Hm _ IH]; [destruct Hf|]. destruct Hf as [->|Hf]; eauto. }
  destruct Hr as (m & Hb & _ & Hr). destruct m; cbn in Hb; try discriminate Hb.
  cbn [reads_as] in Hr. rewrite loans_rejected in Hr; [discriminate Hr|].
  intros E. rewrite E in Hin. destruct Hin.
Qed.
