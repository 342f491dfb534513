(** What a request document says determines the request. *)
From Coq Require Import QArith Bool List.
From Verif Require Import GoStr GoStrFacts GoTime Types Enums EnumTables Records Messages Codec CodecFacts CodecSim SpecCodec Schema SchemaInv
  Document SpecDocument DocumentFacts SetsFacts TreeFacts SimFacts SpecXml SpellFacts SpecWire Headers SpecHeader Xml Wire WireFacts
  SpecReading ReadingFacts ReadingLists ReadingDocs.
Close Scope Q_scope.
Open Scope list_scope.

Lemma sim_unmarshal e n n' t v : sim n n' -> unmarshal e t n v = unmarshal e t n' v.
Proof. intros H. apply (sim_decode e n n' H). Qed.

Lemma sim_is_elem nm k n : sim (Elem nm k) n -> exists k', n = Elem nm k' /\ Forall2 sim (solid k) (solid k').
Proof. intros H. inversion H; subst. eauto. Qed.

Lemma sim_reads_as e n n' m : sim n n' -> reads_as e n m -> reads_as e n' m.
Proof. intros H. destruct m; cbn [reads_as]; rewrite (sim_unmarshal e n n' _ _ H); trivial. Qed.

(** ** The sets of a document *)

Lemma filed_under_app set a b : filed_under set (a ++ b) = filed_under set a ++ filed_under set b.
Proof. unfold filed_under. apply flat_map_app. Qed.

Lemma filed_elsewhere set (tbl : list (str * list Message)) sets : ~ In set (map fst tbl) ->
  Forall (fun n => exists s sub, n = Elem s sub /\ In s (map fst tbl)) sets -> filed_under set sets = [].
Proof.
  intros Hn H. induction H as [|n sets (s & sub & -> & Hs) _ IH]; [reflexivity|].
  unfold filed_under in *. cbn [flat_map]. rewrite IH. destruct (str_eqb s set) eqn:E; [|reflexivity].
  apply str_eqb_eq in E as ->. contradiction.
Qed.

Lemma sets_said (w : Message -> node -> Prop) tbl ns : (forall m n, w m n -> exists nm k, n = Elem nm k) ->
  sets_written w tbl ns -> NoDup (map fst tbl) -> forall sets, Forall2 sim ns sets ->
  Forall (fun n => exists s sub, n = Elem s sub /\ In s (map fst tbl)) sets /\
  forall set ms, In (set, ms) tbl -> Forall2 (fun m n => exists n0, w m n0 /\ sim n0 n) ms (filed_under set sets).
Proof.
  intros Hw H. induction H as [|set tbl ns H IH|set ms kids tbl ns Hms HF H IH]; intros Hnd sets Hs; cbn [map fst] in *.
  - inversion Hs; subst. split; [constructor | intros set ms []].
  - apply NoDup_cons_iff in Hnd as [Hn Hnd]. destruct (IH Hnd sets Hs) as [H1 H2]. split.
    + eapply Forall_impl; [|exact H1]. intros n (s & sub & -> & Hi). exists s, sub. split; [reflexivity | right; exact Hi].
    + intros set' ms' [[= <- <-]|Hin]; [|apply H2; exact Hin]. rewrite (filed_elsewhere set tbl sets Hn H1). constructor.
  - apply NoDup_cons_iff in Hnd as [Hn Hnd]. inversion Hs as [|a b la sets' Hab Hs' E1 E2]; subst.
    destruct (sim_is_elem _ _ _ Hab) as (kids' & -> & Hk).
    destruct (IH Hnd sets' Hs') as [H1 H2]. split.
    + constructor; [exists set, kids'; split; [reflexivity | left; reflexivity]|].
      eapply Forall_impl; [|exact H1]. intros n (s & sub & -> & Hi). exists s, sub. split; [reflexivity | right; exact Hi].
    + assert (Hf : forall s l, filed_under s (Elem set kids' :: l) = (if str_eqb set s then solid kids' else []) ++ filed_under s l)
        by reflexivity.
      intros set' ms' [[= <- <-]|Hin].
      * rewrite Hf, str_eqb_refl, (filed_elsewhere set tbl sets' Hn H1), app_nil_r.
        assert (Hsol : solid kids = kids).
        { clear - HF Hw. induction HF as [|m n ms kids Hm _ IH]; [reflexivity|].
          destruct (Hw _ _ Hm) as (nm & k & ->). cbn [solid filter]. f_equal. exact IH. }
        rewrite Hsol in Hk. clear - HF Hk. revert Hk. generalize (solid kids'). induction HF as [|m n ms kids Hm _ IH]; intros l Hk;
          inversion Hk; subst; constructor; [eauto | apply IH; assumption].
      * rewrite Hf. assert (E : str_eqb set set' = false).
        { destruct (str_eqb set set') eqn:E; [|reflexivity]. apply str_eqb_eq in E as ->. exfalso. apply Hn.
          apply (in_map fst) in Hin. exact Hin. }
        rewrite E. apply H2. exact Hin.
Qed.

Lemma request_sets_sent slots : request_sets (map_slots sent slots) = map (fun p => (fst p, map sent (snd p))) (request_sets slots).
Proof. reflexivity. Qed.

Lemma belongs_in_sent m : belongs_in (sent m) = belongs_in m.
Proof. destruct m; reflexivity. Qed.

Lemma request_names_same slots : map fst (request_sets slots) = request_set_names.
Proof. reflexivity. Qed.

Theorem request_said e q t q' n : request_tree q = Some (t, q') -> request_representable e q' -> sim t n ->
  request_says e n (rq_signon q') (rq_slots q').
Proof.
  intros Et [Hs Hm] Hsim. pose proof (proj1 (request_tree_iff q)) as Hacc. rewrite Et in Hacc.
  destruct Hacc as [_ Hacc]; [discriminate|].
  destruct (request_tree_spec q t q' Et) as (-> & k & ns & -> & Es & HW).
  cbn [rq_signon rq_slots sent_request] in *.
  destruct (sim_is_elem _ _ _ Hsim) as (kids & -> & Hk).
  assert (Hns : solid ns = ns).
  { clear - HW. induction HW as [| |set ms kids tbl ns _ _ _ IH]; [reflexivity | assumption|]. cbn [solid filter]. f_equal. exact IH. }
  cbn [solid filter] in Hk. fold (solid ns) in Hk. rewrite Hns in Hk.
  inversion Hk as [|a b la sets Hab Hsets E1 E2]; subst. clear Hk.
  destruct (sim_is_elem _ _ _ Hab) as (son & -> & Hson). cbn [solid filter] in Hson.
  inversion Hson as [|a b' la l' Hson' Hnil E3 E4]; subst. inversion Hnil; subst. clear Hson Hnil.
  destruct (sim_is_elem _ _ _ Hson') as (sonrq & -> & _).
  destruct (sets_said encodes _ _ (fun m n H => match encodes_written m n H with conj (ex_intro _ k E) _ => ex_intro _ _ (ex_intro _ k E) end)
    HW (request_names_nodup _) sets Hsets) as [H1 H2].
  exists kids, son, sonrq, sets. split; [reflexivity|]. split; [symmetry; exact E2|]. split; [symmetry; exact E4|].
  split; [|split].
  - assert (Hw : negb (null (top_name SignonRequest_ty)) && wf_ty SignonRequest_ty false = true) by (vm_compute; reflexivity).
    assert (Hrt : rt_ok e SignonRequest_ty (top_name SignonRequest_ty) (SignonRequest_to (sent_signon (rq_signon q))))
      by (apply representable_rt; [vm_compute; reflexivity | exact Hs]).
    destruct (top_round e SignonRequest_ty _ _ Hw Hrt Es) as (k' & Ek & Hu). injection Ek as <-.
    rewrite (sim_unmarshal e _ _ _ _ Hson') in Hu.
    apply (whole_struct e (bs "SONRQ") SignonRequest_fields SignonRequest_to SignonRequest_of (SignonRequest_says e) (bs "SONRQ") sonrq _
      SignonRequest_iso SignonRequest_inv (SignonRequest_read e) eq_refl).
    change (TStruct (bs "SONRQ") SignonRequest_fields) with SignonRequest_ty.
    match type of Hu with ?a = _ => replace (unmarshal e SignonRequest_ty (Elem (bs "SONRQ") sonrq) (zero SignonRequest_ty)) with a by reflexivity end.
    rewrite Hu. cbn [option_map]. rewrite SignonRequest_iso. reflexivity.
  - exact H1.
  - intros set ms Hin. rewrite request_sets_sent in Hin. pose proof Hin as Hin'. apply in_map_iff in Hin as ((set0 & ms0) & [= <- <-] & Hin).
    specialize (H2 _ _ Hin). cbn [snd fst] in *.
    assert (Hrep : forall m, In m ms0 -> message_representable e (sent m)).
    { intros m Hi. apply (Hm set0 (map sent ms0)); [rewrite request_sets_sent; exact Hin' | apply in_map; exact Hi]. }
    assert (Hb : forall m, In m ms0 -> belongs_in m = set0) by (intros m Hi; apply (Hacc set0 ms0 m Hin Hi)).
    clear - H2 Hrep Hb. induction H2 as [|m n ms l (n0 & He & Hsn) _ IH]; cbn [map]; constructor.
    + destruct (encodes_written m n0 He) as [[k0 ->] Hr].
      specialize (Hr e (Hrep m (or_introl eq_refl))). apply (sim_reads_as e _ _ _ Hsn) in Hr.
      destruct (sim_is_elem _ _ _ Hsn) as (k' & -> & _). split; [rewrite belongs_in_sent; apply Hb; left; reflexivity|].
      exists k'. split; [reflexivity|]. apply message_read. exact Hr.
    + apply IH; intros m' Hi; [apply Hrep | apply Hb]; right; exact Hi.
Qed.

(** ** The request is determined *)

Lemma reads_struct_unique {A} e fs (to : A -> interp_flds fs) (of : interp_flds fs -> A) R : (forall r, of (to r) = r) ->
  reads_struct e fs to R -> forall k r r', R k r -> R k r' -> r = r'.
Proof. intros Hi H k r r' H1 H2. apply H in H1. apply H in H2. rewrite H1 in H2. rewrite <- (Hi r), <- (Hi r'). congruence. Qed.

Lemma reads_as_unique e n m m' : transaction_tag m = transaction_tag m' -> reads_as e n m -> reads_as e n m' -> m = m'.
Proof.
  intros Ht H1 H2. destruct m, m'; try discriminate Ht; cbn [reads_as] in *; congruence.
Qed.

Lemma element_says_unique e set n m m' : element_says e set m n -> element_says e set m' n -> m = m'.
Proof.
  intros (_ & k & -> & H1) (_ & k' & E & H2). injection E as Et ->. apply (reads_as_unique e (Elem (transaction_tag m) k')); [exact Et| |].
  - apply message_read. exact H1.
  - rewrite Et. apply message_read. exact H2.
Qed.

Lemma Forall2_unique {A B} (P : A -> B -> Prop) : (forall a a' b, P a b -> P a' b -> a = a') ->
  forall l l' m, Forall2 P l m -> Forall2 P l' m -> l = l'.
Proof.
  intros H l r m F. revert r. induction F as [|a b l m HP F IH]; intros r F'; inversion F'; subst; [reflexivity|]. f_equal; [eapply H; eassumption | apply IH; assumption].
Qed.

Lemma request_sets_inj s s' : request_sets s = request_sets s' -> s = s'.
Proof. destruct s, s'. unfold request_sets. cbn. intros [= -> -> -> -> -> -> -> -> -> -> -> -> -> ->]. reflexivity. Qed.

Lemma pairs_equal {A B} (l l' : list (A * B)) : map fst l = map fst l' -> NoDup (map fst l) ->
  (forall a b b', In (a, b) l -> In (a, b') l' -> b = b') -> l = l'.
Proof.
  revert l'. induction l as [|[a b] l IH]; intros [|[a' b'] l'] E Hn H; try discriminate E; [reflexivity|].
  cbn [map fst] in *. injection E as <- E. apply NoDup_cons_iff in Hn as [Ha Hn].
  f_equal.
  - f_equal. apply (H a); left; reflexivity.
  - apply IH; [exact E | exact Hn|]. intros x y y' H1 H2. apply (H x); right; assumption.
Qed.

Theorem request_says_unique e n s s' l l' : request_says e n s l -> request_says e n s' l' -> s = s' /\ l = l'.
Proof.
  intros (kids & son & k & sets & -> & E1 & E2 & Hs & _ & HF) (kids' & son' & k' & sets' & E & E1' & E2' & Hs' & _ & HF').
  injection E as <-. rewrite E1 in E1'. injection E1' as <- <-. rewrite E2 in E2'. injection E2' as <-.
  split; [exact (reads_struct_unique e SignonRequest_fields SignonRequest_to SignonRequest_of _ SignonRequest_iso (SignonRequest_read e) k s s' Hs Hs')|].
  apply request_sets_inj. apply pairs_equal; [reflexivity | apply request_names_nodup|].
  intros set ms ms' H1 H2. apply (Forall2_unique (element_says e set)) with (m := filed_under set sets); auto.
  intros a a' b. apply element_says_unique.
Qed.

(** ** Bytes *)

Theorem request_sent_says e q q' s rest : known_version (rq_version q) -> request_clean q -> request_representable e q' ->
  request_marshal q = Some (s, q') ->
  exists n, read_document (s ++ rest) = Some (rq_version q, n) /\ request_says e n (rq_signon q') (rq_slots q').
Proof.
  intros Hv Hc Hr Hm.
  assert (Et : exists t, request_tree q = Some (t, q')).
  { unfold request_marshal in Hm. destruct (request_tree q) as [[t q'']|]; [|discriminate]. exists t. cbn [bind fst snd] in Hm.
    injection Hm as _ ->. reflexivity. }
  destruct Et as [t Et]. destruct (request_read_clean q t q' s rest Hv Hc Et Hm) as (n & E & Hn).
  exists n. split; [exact E|]. apply (request_said e q t q' n Et Hr). apply same_tree_sim. exact Hn.
Qed.
