(** Which documents are accepted and what is made of them. *)
From Coq Require Import QArith.
From Verif Require Import GoStr GoStrFacts GoTime Types Enums EnumTables Records Common Messages SpecValid ValidFacts Codec CodecFacts SpecCodec Schema
  Document SpecDocument DocumentFacts SetsFacts.
Close Scope Q_scope.

Lemma decode_message_iff e set n m :
  decode_message e set n = Some m <-> message_reads e (msgtype_string (set, Rs)) m n.
Proof.
  split.
  - intros H. destruct (decode_message_kind e set n m H) as (Ht & Hn & Hr).
    split; [rewrite belongs_in_type, Ht; reflexivity | auto].
  - intros (Hb & (kids & ->) & Hr). rewrite belongs_in_type in Hb. apply msgtype_string_inj in Hb.
    destruct m; cbn [message_type] in Hb; try discriminate Hb; injection Hb as <-;
    cbn [reads_as transaction_tag] in *; unfold decode_message; cbv beta zeta; rewrite ?str_eqb_refl;
    try (match goal with |- (if ?b then _ else _) = _ => change b with false; cbv iota; rewrite ?str_eqb_refl end);
    (match type of Hr with option_map _ ?u = _ =>
       destruct u; [|discriminate Hr]; cbn [option_map] in *; injection Hr as ->; reflexivity end).
Qed.

Lemma names_body_sets nm : In nm response_set_names <-> exists set, In set body_sets /\ nm = msgtype_string (set, Rs).
Proof.
  unfold response_set_names. rewrite <- response_table. unfold named_table. rewrite map_map. cbn [fst].
  split.
  - intros H. apply in_map_iff in H as ([ms [t d]] & <- & Hin). exists t. cbn [snd].
    cbn [set_table] in Hin. repeat destruct Hin as [E|Hin]; [ .. | destruct Hin];
    injection E as _ <- <-; split; [cbn; tauto | reflexivity| ..]; try (cbn; tauto); reflexivity.
  - intros (t & Hin & ->). apply in_map_iff. 
    cbn in Hin. repeat destruct Hin as [<-|Hin]; [ .. | destruct Hin]; (match goal with |- context [msgtype_string (?t, Rs)] => exists ([], (t, Rs)) end; split; [reflexivity | cbn; tauto]).
Qed.

Lemma Forall2_imp {A B} (P Q : A -> B -> Prop) l k : (forall a b, P a b -> Q a b) -> Forall2 P l k -> Forall2 Q l k.
Proof. induction 2; constructor; auto. Qed.

Lemma first_elem_spec sk x rest : first_elem sk = Some (x, rest) <->
  exists before, sk = before ++ x :: rest /\ Forall no_element before /\ ~ no_element x.
Proof.
  split.
  - revert x rest. induction sk as [|n sk IH]; [discriminate|]. intros x rest H. destruct n as [nm k|s|].
    + injection H as <- <-. exists []. split; [reflexivity|]. split; [constructor|]. intros H. exact (H _ _ eq_refl).
    + destruct (IH _ _ H) as (b & -> & Hb & Hx). exists (Text s :: b). split; [reflexivity|].
      split; [constructor; [intros ? ?; discriminate | exact Hb] | exact Hx].
    + destruct (IH _ _ H) as (b & -> & Hb & Hx). exists (Misc :: b). split; [reflexivity|].
      split; [constructor; [intros ? ?; discriminate | exact Hb] | exact Hx].
  - intros (b & -> & Hb & Hx). induction Hb as [|n b Hn Hb IH].
    + cbn [app first_elem]. destruct x as [nm k|s|]; [reflexivity| |]; destruct Hx; intros ? ?; discriminate.
    + cbn [app first_elem]. destruct n as [nm k|s|]; [destruct (Hn _ _ eq_refl)| |]; exact IH.
Qed.

Lemma slot_response_sets s set : In set body_sets -> In (msgtype_string (set, Rs), slot set s) (response_sets s).
Proof.
  intros H. rewrite <- response_table. cbn in H.
  repeat destruct H as [<-|H]; [ .. | destruct H]; cbn; tauto.
Qed.

Lemma set_table_slot s l t d : In (l, (t, d)) (set_table s Rs) -> In t body_sets /\ d = Rs /\ l = slot t s.
Proof.
  intros Hin. cbn [set_table] in Hin.
  repeat destruct Hin as [E|Hin]; [ .. | destruct Hin];
  (assert (Et : t = fst (snd (l, (t, d)))) by reflexivity; assert (Ed : d = snd (snd (l, (t, d)))) by reflexivity;
   assert (El : l = fst (l, (t, d))) by reflexivity; rewrite <- E in Et, Ed, El; cbn [fst snd] in Et, Ed, El; subst t d l;
   split; [cbn; tauto | split; reflexivity]).
Qed.

Lemma response_sets_slot s nm ms : In (nm, ms) (response_sets s) ->
  exists set, In set body_sets /\ nm = msgtype_string (set, Rs) /\ ms = slot set s.
Proof.
  intros H. rewrite <- response_table in H. unfold named_table in H. apply in_map_iff in H as ([l [t d]] & E & Hin).
  cbn [fst snd] in E. apply set_table_slot in Hin as (Ht & -> & ->). exists t.
  split; [exact Ht|]. split; congruence.
Qed.

Lemma filed_incl set kids n : In n (filed_under set kids) <->
  exists sub, In (Elem set sub) kids /\ In n (solid sub).
Proof.
  unfold filed_under. rewrite in_flat_map. split.
  - intros ([nm sub|s|] & Hin & H); try contradiction. destruct (str_eqb nm set) eqn:E; [|contradiction].
    apply str_eqb_eq in E; subst nm. eauto.
  - intros (sub & Hin & H). exists (Elem set sub). split; [exact Hin|]. rewrite str_eqb_refl. exact H.
Qed.

Lemma decode_sets_iff e sets s :
  decode_sets e sets no_messages = Some s <->
  Forall (fun n => exists set sub, n = Elem set sub /\ In set response_set_names) sets /\
  forall set ms, In (set, ms) (response_sets s) -> Forall2 (message_reads e set) ms (filed_under set sets).
Proof.
  split.
  - intros H. destruct (decode_sets_spec e sets no_messages s H) as [Hg Hs]. split.
    + eapply Forall_impl; [|exact Hg]. intros n (set & sub & -> & Hin & _). exists (msgtype_string (set, Rs)), sub.
      split; [reflexivity|]. apply names_body_sets. eauto.
    + intros nm ms Hin. apply response_sets_slot in Hin as (set & Hin & -> & ->).
      destruct (Hs set Hin) as (ms & E & HF).
      assert (E0 : slot set no_messages = []) by (destruct set; reflexivity).
      rewrite E0 in E. cbn [app] in E. rewrite E.
      eapply Forall2_imp; [|exact HF]. intros m n Hm. apply decode_message_iff. exact Hm.
  - intros [Hk HF].
    assert (Hg : Forall (good_set e) sets).
    { rewrite Forall_forall in *. intros n Hn. destruct (Hk n Hn) as (nm & sub & -> & Hnm).
      apply names_body_sets in Hnm as (set & Hin & ->). exists set, sub. split; [reflexivity|]. split; [exact Hin|].
      apply Forall_forall. intros x Hx. specialize (HF _ _ (slot_response_sets s set Hin)).
      assert (Hx' : In x (filed_under (msgtype_string (set, Rs)) sets)) by (apply filed_incl; eauto).
      clear - HF Hx'. induction HF as [|m n ms ns Hm _ IH]; [destruct Hx'|]. destruct Hx' as [<-|Hx']; [|auto].
      apply decode_message_iff in Hm. rewrite Hm. discriminate. }
    pose proof (decode_sets_some e sets no_messages Hg) as Hsome. apply some_ex in Hsome as [s' Es']. rewrite Es'. f_equal.
    apply slots_eq. intros set Hin. destruct (decode_sets_spec e sets no_messages s' Es') as [_ Hs].
    destruct (Hs set Hin) as (ms & E & HF').
    assert (E0 : slot set no_messages = []) by (destruct set; reflexivity).
    rewrite E0 in E. cbn [app] in E. rewrite E.
    apply (Forall2_fun (decode_message e set) _ _ _ HF').
    eapply Forall2_imp; [|exact (HF _ _ (slot_response_sets s set Hin))].
    intros m n Hm. apply decode_message_iff. exact Hm.
Qed.

Theorem decode_ofx_iff e v t r :
  decode_ofx e v t = Some r <-> rs_version r = v /\ response_reads e t r.
Proof.
  unfold response_reads. split.
  - intros H. destruct t as [nm kids|s|]; [|discriminate H|discriminate H]. cbn [decode_ofx] in H.
    destruct (str_eqb nm (bs "OFX")) eqn:En; [|discriminate H]. apply str_eqb_eq in En. cbn [negb] in H.
    destruct (solid kids) as [|[sn sk|s|] sets] eqn:Es; try discriminate H.
    destruct (str_eqb sn (msgtype_string (MSignon, Rs))) eqn:Esn; [|discriminate H]. apply str_eqb_eq in Esn. cbn [negb] in H.
    destruct (first_elem sk) as [[x rest]|] eqn:Ef; [|discriminate H].
    destruct (null (solid rest)) eqn:Er; [|discriminate H]. cbn [negb] in H.
    destruct (unmarshal e SignonResponse_ty x (zero SignonResponse_ty)) as [sv|] eqn:Eu; [|discriminate H]. cbn [bind] in H.
    destruct (decode_sets e sets no_messages) as [sl|] eqn:Ed; [|discriminate H]. cbn [bind] in H. injection H as <-.
    cbn [rs_version rs_signon rs_slots]. split; [reflexivity|].
    apply first_elem_spec in Ef as (before & Ek & Hb & Hx). apply decode_sets_iff in Ed as [H1 H2].
    exists kids, before, x, rest, sets. rewrite <- En. split; [reflexivity|].
    split; [rewrite Es, Esn, Ek; reflexivity|]. split; [exact Hb|].
    split; [destruct (solid rest); [reflexivity | discriminate Er]|]. split; [exact Hx|].
    split; [rewrite Eu; reflexivity|]. split; assumption.
  - intros (Ev & kids & before & x & rest & sets & -> & Es & Hb & Hr & Hx & Eu & H1 & H2).
    cbn [decode_ofx]. rewrite str_eqb_refl. cbn [negb]. rewrite Es.
    replace (str_eqb (bs "SIGNONMSGSRSV1") (msgtype_string (MSignon, Rs))) with true by reflexivity. cbn [negb].
    assert (Ef : first_elem (before ++ x :: rest) = Some (x, rest)) by (apply first_elem_spec; eauto).
    rewrite Ef, Hr. cbn [null negb].
    destruct (unmarshal e SignonResponse_ty x (zero SignonResponse_ty)) as [sv|]; [|discriminate Eu].
    cbn [option_map bind] in *. injection Eu as Eu.
    assert (Ed : decode_sets e sets no_messages = Some (rs_slots r)) by (apply decode_sets_iff; auto).
    rewrite Ed. cbn [bind]. rewrite Eu, <- Ev. destruct r; reflexivity.
Qed.

(** ** Validation *)

Lemma add_plain errs v : add_err errs (plain_err v) = errs ++ map EPlain (problem v).
Proof. destruct v; cbn [plain_err option_map add_err problem map]; [reflexivity | rewrite app_nil_r; reflexivity]. Qed.

Lemma fold_add_plain {A} (f : A -> validity) l : forall errs,
  fold_left (fun errs m => add_err errs (plain_err (f m))) l errs =
  errs ++ map EPlain (flat_map (fun m => problem (f m)) l).
Proof.
  induction l as [|m l IH]; intros errs; cbn [fold_left flat_map]; [rewrite app_nil_r; reflexivity|].
  rewrite IH, add_plain, map_app, app_assoc. reflexivity.
Qed.

Lemma flat_map_snd_named s : flat_map snd (response_sets s) = concat (map fst (set_table s Rs)).
Proof. reflexivity. Qed.

Theorem response_valid_problems r :
  response_valid r = match problems r with [] => None | l => Some (EInvalid (map EPlain l)) end.
Proof.
  unfold response_valid. cbv zeta. rewrite fold_add_plain, add_plain, <- flat_map_snd_named.
  cbn [app]. rewrite <- map_app. change (err_or_nil (map EPlain (problems r)) = match problems r with [] => None | l => Some (EInvalid (map EPlain l)) end).
  destruct (problems r); reflexivity.
Qed.

Lemma problem_nil v : problem v = [] <-> v = None.
Proof. destruct v; cbn; split; congruence. Qed.

Lemma flat_map_nil {A B} (f : A -> list B) l : flat_map f l = [] <-> forall x, In x l -> f x = [].
Proof.
  induction l as [|x l IH]; cbn [flat_map]; [split; [intros _ ? [] | reflexivity]|].
  split.
  - intros H. apply app_eq_nil in H as [H1 H2]. intros y [<-|Hy]; [exact H1 | apply IH; assumption].
  - intros H. rewrite (H x (or_introl eq_refl)). apply IH. intros y Hy. apply H. right; exact Hy.
Qed.

Theorem response_valid_iff r : response_valid r = None <->
  signon_response_ok (rs_signon r) /\
  forall set ms m, In (set, ms) (response_sets (rs_slots r)) -> In m ms -> message_ok (rs_version r) m.
Proof.
  rewrite response_valid_problems.
  assert (H : match problems r with [] => None | l => Some (EInvalid (map EPlain l)) end = None <-> problems r = [])
    by (destruct (problems r); split; congruence).
  rewrite H. unfold problems. split.
  - intros E. apply app_eq_nil in E as [E1 E2]. split; [apply signon_response_valid_iff, problem_nil; exact E1|].
    intros set ms m Hin Hm. rewrite flat_map_nil in E2. apply message_valid_iff, problem_nil. apply E2.
    apply in_flat_map. exists (set, ms). auto.
  - intros [E1 E2]. apply signon_response_valid_iff in E1. rewrite (proj2 (problem_nil _) E1). cbn [app]. apply flat_map_nil. intros m Hm.
    apply in_flat_map in Hm as ([set ms] & Hin & Hm). apply problem_nil, message_valid_iff. exact (E2 set ms m Hin Hm).
Qed.

Lemma flat_plain l : Forall is_plain l -> map EPlain (flat_map plain_errors l) = l.
Proof. induction 1 as [|x l [t ->] _ IH]; [reflexivity|]. cbn [flat_map plain_errors app map]. rewrite IH. reflexivity. Qed.

Theorem add_err_flat errs err :
  Forall is_plain errs -> (forall l, err = Some (EInvalid l) -> Forall is_plain l) ->
  Forall is_plain (add_err errs err) /\
  flat_map plain_errors (add_err errs err) =
    flat_map plain_errors errs ++ match err with None => [] | Some e => plain_errors e end.
Proof.
  intros H1 H2. destruct err as [[t|l]|]; cbn [add_err plain_errors].
  - split; [apply Forall_app; split; [exact H1 | repeat constructor; eexists; reflexivity]|].
    rewrite flat_map_app. reflexivity.
  - split; [apply Forall_app; split; [exact H1 | apply H2; reflexivity]|]. rewrite flat_map_app. reflexivity.
  - split; [exact H1|]. rewrite app_nil_r. reflexivity.
Qed.
