(** What Marshal writes is what SpecContent and SpecLayout say, and nothing else
    is. *)
From Coq Require Import QArith Lia.
From Coq Require Import List.
From Verif Require Import GoStr GoStrFacts GoTime Types Enums EnumTables Records Common Messages Codec Schema Document
  SpecValid SpecDocument SetsFacts SpecXml XmlFacts SpecWire SpecHeader Wire WireFacts SpecLayout LayoutFacts SpecContent ContentFacts.
Close Scope Q_scope.

(** ** The layout determines the bytes *)

Lemma reference_fun r r' c : In (r, c) references -> In (r', c) references -> r = r'.
Proof.
  intros H H'. cbn [In references] in H, H'.
  repeat destruct H as [H|H]; try contradiction; apply pair_equal_spec in H as [<- <-];
    repeat destruct H' as [H'|H']; try contradiction; apply pair_equal_spec in H' as [H1 H2]; try (exact (eq_sym H1) || exact H1);
    exfalso; vm_compute in H2; discriminate.
Qed.

Lemma written_fun raw s : written raw s -> forall raw', written raw' s -> raw = raw'.
Proof.
  induction 1 as [|c raw s Hc H IH|r c raw s Hr H IH]; intros raw' H'; inversion H' as [|c' raw0 s' Hc' H0|r' c' raw0 s' Hr' H0]; subst.
  - reflexivity.
  - f_equal. auto.
  - exfalso. apply Hc. apply in_map_iff. exists (r', c). auto.
  - exfalso. apply Hc'. apply in_map_iff. exists (r, c). auto.
  - rewrite (reference_fun _ _ _ Hr Hr'). f_equal. auto.
Qed.

Lemma repaired_fun s m : repaired s m -> forall m', repaired s m' -> m = m'.
Proof.
  induction 1 as [|r s m Hr H IH|r s m Hu Hn H IH|c s m Hb H IH]; intros m' H'.
  - symmetry. apply (repaired_empty [] m' H'). reflexivity.
  - remember (utf8_char r ++ s) as x eqn:E. destruct H' as [|r' s' m' Hr' H'|r' s' m' Hu' Hn' H'|c' s' m' Hb' H'].
    + exfalso. pose proof (utf8_char_length r) as Hl. apply (f_equal (@length _)) in E. rewrite app_length in E. cbn in E. lia.
    + apply utf8_char_inj in E as [-> ->]; [|apply xml_unicode; assumption..]. f_equal. auto.
    + exfalso. apply utf8_char_inj in E as [-> ->]; [|assumption | apply xml_unicode; assumption]. contradiction.
    + exfalso. exact (Hb' r s (xml_unicode _ Hr) E).
  - remember (utf8_char r ++ s) as x eqn:E. destruct H' as [|r' s' m' Hr' H'|r' s' m' Hu' Hn' H'|c' s' m' Hb' H'].
    + exfalso. pose proof (utf8_char_length r) as Hl. apply (f_equal (@length _)) in E. rewrite app_length in E. cbn in E. lia.
    + exfalso. apply utf8_char_inj in E as [-> ->]; [|apply xml_unicode; assumption | assumption]. contradiction.
    + apply utf8_char_inj in E as [-> ->]; [|assumption..]. f_equal. auto.
    + exfalso. exact (Hb' r s Hu E).
  - remember (c :: s) as x eqn:E. destruct H' as [|r' s' m' Hr' H'|r' s' m' Hu' Hn' H'|c' s' m' Hb' H'].
    + discriminate.
    + exfalso. exact (Hb r' s' (xml_unicode _ Hr') eq_refl).
    + exfalso. exact (Hb r' s' Hu' eq_refl).
    + injection E as -> ->. f_equal. auto.
Qed.

Lemma text_kids_fun s s' : text_kids s = text_kids s' -> s = s'.
Proof. destruct s, s'; cbn; congruence. Qed.

Lemma text_kids_laid closed before d s b : laid_kids closed before d (text_kids s) b -> text_kids s = [].
Proof. destruct s; [reflexivity|]. cbn. intros H. inversion H as [|? ? ? ? ? Hx]; subst. inversion Hx. Qed.

Lemma laid_fun closed before :
  (forall d n b, laid_out closed before d n b -> forall b', laid_out closed before d n b' -> b = b') /\
  (forall d ns b, laid_kids closed before d ns b -> forall b', laid_kids closed before d ns b' -> b = b').
Proof.
  apply laid_both.
  - intros d nm s m raw Hc Hr Hw b' H'. inversion H' as [d0 nm0 s' m' raw' Hc' Hr' Hw' | d0 nm0 s' m' raw' Hc' Hr' Hw' | d0 nm0 kids b Hc' Hk Hl]; subst.
    + apply text_kids_fun in H1 as ->. rewrite (repaired_fun _ _ Hr _ Hr') in Hw. rewrite (written_fun _ _ Hw _ Hw'). reflexivity.
    + contradiction.
    + apply text_kids_laid in Hl. contradiction.
  - intros d nm s m raw Hc Hr Hw b' H'. inversion H' as [d0 nm0 s' m' raw' Hc' Hr' Hw' | d0 nm0 s' m' raw' Hc' Hr' Hw' | d0 nm0 kids b Hc' Hk Hl]; subst.
    + contradiction.
    + apply text_kids_fun in H1 as ->. rewrite (repaired_fun _ _ Hr _ Hr') in Hw. rewrite (written_fun _ _ Hw _ Hw'). reflexivity.
    + contradiction.
  - intros d nm kids b Hc Hk Hl IH b' H'. inversion H' as [d0 nm0 s' m' raw' Hc' Hr' Hw' | d0 nm0 s' m' raw' Hc' Hr' Hw' | d0 nm0 kids' b0 Hc' Hk' Hl']; subst.
    + apply text_kids_laid in Hl. contradiction.
    + contradiction.
    + rewrite (IH _ Hl'). reflexivity.
  - intros d b' H'. inversion H'; subst. reflexivity.
  - intros d n kids b b0 Hn IHn Hk IHk b' H'. inversion H' as [|? ? ? b1 b2 Hn' Hk']; subst.
    rewrite (IHn _ Hn'), (IHk _ Hk'). reflexivity.
Qed.

Lemma version_fun t t' v : In (t, v) (sgml_versions ++ xml_versions) -> In (t', v) (sgml_versions ++ xml_versions) -> t = t'.
Proof.
  cbn [In app sgml_versions xml_versions]. intros H H'.
  repeat destruct H as [H|H]; try contradiction; apply pair_equal_spec in H as [<- <-];
    repeat destruct H' as [H'|H']; try contradiction; apply pair_equal_spec in H' as [H1 H2];
    first [discriminate H2 | congruence].
Qed.

Lemma header_of_fun v l l' : header_of v l -> header_of v l' -> l = l'.
Proof.
  assert (Hd : forall t t' v, In (t, v) sgml_versions -> In (t', v) xml_versions -> False).
  { intros t t' w. cbn [In sgml_versions xml_versions]. intros H H'.
    repeat destruct H as [H|H]; try contradiction; apply pair_equal_spec in H as [<- <-];
      repeat destruct H' as [H'|H']; try contradiction; apply pair_equal_spec in H' as [H1 H2]; discriminate H2. }
  intros H H'. destruct H as [t v H|t v H|v H]; inversion H' as [t' v' H0|t' v' H0|v' H0]; subst; try reflexivity.
  - rewrite (version_fun t t' v); [reflexivity|apply in_or_app; auto..].
  - exfalso. eauto.
  - exfalso. apply H0. exists t. apply in_or_app. auto.
  - exfalso. eauto.
  - rewrite (version_fun t t' v); [reflexivity|apply in_or_app; auto..].
  - exfalso. apply H0. exists t. apply in_or_app. auto.
  - exfalso. apply H. exists t'. apply in_or_app. auto.
  - exfalso. apply H. exists t'. apply in_or_app. auto.
Qed.

Lemma request_bytes_fun q s s' : request_bytes q s -> request_bytes q s' -> s = s'.
Proof.
  intros (l & b & Hl & -> & Hb) (l' & b' & Hl' & -> & Hb').
  rewrite (header_of_fun _ _ _ Hl Hl'), (proj1 (laid_fun _ _) _ _ _ Hb _ Hb'). reflexivity.
Qed.

Lemma response_bytes_fun r s s' : response_bytes r s -> response_bytes r s' -> s = s'.
Proof.
  intros (l & b & Hl & -> & Hb) (l' & b' & Hl' & -> & Hb').
  rewrite (header_of_fun _ _ _ Hl Hl'), (proj1 (laid_fun _ _) _ _ _ Hb _ Hb'). reflexivity.
Qed.

(** ** Marshal *)

Lemma request_marshal_bytes q s q' : request_marshal q = Some (s, q') -> q' = sent_request q /\ request_bytes q s.
Proof.
  intros H. destruct (request_layout q s q' H) as (t & lines & body & Et & -> & Hh & _ & Hb).
  destruct (request_written q t q' Et) as [-> ->]. split; [reflexivity|]. exists lines, body. auto.
Qed.

Theorem request_marshal_iff q s q' : request_marshal q = Some (s, q') <->
  signon_ok (rq_signon q) /\ slots_acceptable (rq_version q) (request_sets (rq_slots q)) /\
  q' = sent_request q /\ request_bytes q s.
Proof.
  split.
  - intros H. destruct (request_marshal_bytes q s q' H) as [Hq Hs].
    assert (Ht : request_tree q <> None).
    { intros E. unfold request_marshal in H. rewrite E in H. discriminate. }
    apply request_tree_iff in Ht as [H1 H2]. auto.
  - intros (H1 & H2 & -> & Hs). assert (Ht : request_tree q <> None) by (apply request_tree_iff; auto).
    destruct (request_marshal q) as [[s0 q0]|] eqn:E.
    + destruct (request_marshal_bytes q s0 q0 E) as [-> Hs0]. rewrite (request_bytes_fun q s s0 Hs Hs0). reflexivity.
    + exfalso. unfold request_marshal in E. destruct (request_tree q); [discriminate | congruence].
Qed.

Theorem response_marshal_iff r s : response_named r ->
  (response_marshal r = Some s <->
   signon_response_ok (rs_signon r) /\ slots_acceptable (rs_version r) (response_sets (rs_slots r)) /\ response_bytes r s).
Proof.
  intros Hn. assert (Hb : forall s, response_marshal r = Some s -> response_bytes r s).
  { intros s0 H. destruct (response_layout r s0 Hn H) as (t & lines & body & Et & -> & Hh & _ & Hb).
    rewrite (response_written r t Et) in Hb. exists lines, body. auto. }
  split.
  - intros H. assert (Ht : response_tree r <> None).
    { intros E. unfold response_marshal in H. rewrite E in H. discriminate. }
    apply response_tree_iff in Ht as [H1 H2]. auto.
  - intros (H1 & H2 & Hs). assert (Ht : response_tree r <> None) by (apply response_tree_iff; auto).
    destruct (response_marshal r) as [s0|] eqn:E.
    + rewrite (response_bytes_fun r s s0 Hs (Hb _ eq_refl)). reflexivity.
    + exfalso. unfold response_marshal in E. destruct (response_tree r); [discriminate | congruence].
Qed.
