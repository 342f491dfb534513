(** Lemmas about Enums.v and EnumTables.v. *)
From Coq Require Import Lia ZifyBool ZifyNat ZifyN.
From Verif Require Import GoStr SpecStr GoStrFacts Enums EnumTables.
Local Open Scope N_scope.

(** What the generated tables satisfy. *)
Fixpoint nodupb (l : list str) : bool :=
  match l with
  | [] => true
  | x :: l' => negb (existsb (str_eqb x) l') && nodupb l'
  end.

Lemma nodupb_spec l : nodupb l = true -> NoDup l.
Proof.
  induction l as [|x l IH]; cbn [nodupb]; intros H; [constructor|].
  apply andb_true_iff in H as [H1 H2]. constructor; [|apply IH, H2].
  intros Hin. apply negb_true_iff in H1.
  assert (existsb (str_eqb x) l = true) as He.
  { apply existsb_exists. exists x. split; [exact Hin|apply str_eqb_refl]. }
  congruence.
Qed.

Definition enum_wfb (t : enum) : bool :=
  (en_first t =? 1) && (en_last t =? N.of_nat (length (en_names t))) &&
  nodupb (en_names t) && forallb trimmedb (en_names t).

Lemma all_enums_wfb : forallb enum_wfb all_enums = true.
Proof. vm_compute. reflexivity. Qed.

Record enum_wf (t : enum) : Prop := {
  wf_first : en_first t = 1;
  wf_last : en_last t = N.of_nat (length (en_names t));
  wf_nodup : NoDup (en_names t);
  wf_trimmed : forall n, In n (en_names t) -> trimmed n
}.

Lemma all_enums_wf t : In t all_enums -> enum_wf t.
Proof.
  intros H. pose proof all_enums_wfb as Hall. rewrite forallb_forall in Hall.
  specialize (Hall t H). unfold enum_wfb in Hall.
  rewrite !andb_true_iff, !N.eqb_eq in Hall. destruct Hall as [[[H1 H2] H3] H4].
  constructor; auto using nodupb_spec.
  rewrite forallb_forall in H4. intros n Hn. apply trimmedb_spec, H4, Hn.
Qed.

Lemma enum_find_spec v : forall l i,
  match enum_find v i l with
  | Some e => i < e <= i + N.of_nat (length l) /\ nth_error l (N.to_nat (e - 1 - i)) = Some v
  | None => ~ In v l
  end.
Proof.
  induction l as [|s l IH]; intros i; cbn [enum_find].
  - intros [].
  - destruct (str_eqb_spec s v) as [->|Hne].
    + cbn [length]. split; [lia|]. replace (N.to_nat (i + 1 - 1 - i)) with 0%nat by lia. reflexivity.
    + specialize (IH (i + 1)). destruct (enum_find v (i + 1) l) as [e|].
      * destruct IH as [Hr Hn]. cbn [length]. split; [lia|].
        replace (N.to_nat (e - 1 - i)) with (S (N.to_nat (e - 1 - (i + 1)))) by lia. exact Hn.
      * intros [->|Hin]; [congruence|exact (IH Hin)].
Qed.

Lemma enum_valid_range t v : enum_wf t ->
  (enum_valid t v = true <-> 1 <= v <= N.of_nat (length (en_names t))).
Proof.
  intros H. unfold enum_valid. rewrite (wf_first t H), (wf_last t H). lia.
Qed.

Lemma enum_index_valid t v : enum_wf t -> enum_valid t v = true ->
  exists n, enum_index t v = Some n /\ In n (en_names t) /\
            nth_error (en_names t) (N.to_nat (v - 1)) = Some n.
Proof.
  intros H Hv. apply (enum_valid_range t v H) in Hv.
  unfold enum_index. replace (v =? 0) with false by lia.
  destruct (nth_error (en_names t) (N.to_nat (v - 1))) as [n|] eqn:E.
  - exists n. split; [reflexivity|]. split; [eapply nth_error_In, E|reflexivity].
  - apply nth_error_None in E. lia.
Qed.

Lemma enum_string_valid t v : enum_wf t -> enum_valid t v = true ->
  exists n, enum_string t v = Some n /\ In n (en_names t) /\
            nth_error (en_names t) (N.to_nat (v - 1)) = Some n.
Proof. intros H Hv. unfold enum_string. rewrite Hv. apply enum_index_valid; assumption. Qed.

Lemma enum_find_nth t v n : enum_wf t -> enum_valid t v = true ->
  nth_error (en_names t) (N.to_nat (v - 1)) = Some n ->
  enum_find n 0 (en_names t) = Some v.
Proof.
  intros H Hv Hn. pose proof (enum_find_spec n (en_names t) 0) as Hf.
  apply (enum_valid_range t v H) in Hv.
  destruct (enum_find n 0 (en_names t)) as [e|].
  - destruct Hf as [Hr Hf]. f_equal.
    assert (N.to_nat (e - 1 - 0) = N.to_nat (v - 1)) as Heq.
    { apply (proj1 (NoDup_nth_error (en_names t)) (wf_nodup t H)).
      - lia.
      - congruence. }
    lia.
  - exfalso. apply Hf. eapply nth_error_In, Hn.
Qed.

Lemma enum_from_string_name t v n : enum_wf t -> enum_valid t v = true ->
  nth_error (en_names t) (N.to_nat (v - 1)) = Some n ->
  forall s, trims_to s n -> enum_from_string t s = (v, true).
Proof.
  intros H Hv Hn s Hs. unfold enum_from_string.
  rewrite (trim_space_complete s n Hs), (enum_find_nth t v n H Hv Hn). reflexivity.
Qed.

Lemma enum_round_trip t : In t all_enums -> forall v, enum_valid t v = true ->
  exists n, enum_string t v = Some n /\ enum_new t n = (v, true) /\ enum_unmarshal t n = Some v.
Proof.
  intros Hin v Hv. pose proof (all_enums_wf t Hin) as H.
  destruct (enum_string_valid t v H Hv) as [n [Hs [Hi Hn]]].
  exists n. split; [exact Hs|].
  assert (trims_to n n) as Ht.
  { apply trim_space_iff, trim_space_id, (wf_trimmed t H n Hi). }
  unfold enum_new, enum_unmarshal. rewrite (enum_from_string_name t v n H Hv Hn n Ht). auto.
Qed.

Lemma enum_string_inj t : In t all_enums -> forall v w,
  enum_valid t v = true -> enum_valid t w = true ->
  enum_string t v = enum_string t w -> v = w.
Proof.
  intros Hin v w Hv Hw Heq.
  destruct (enum_round_trip t Hin v Hv) as [n [Hs [Hn _]]].
  destruct (enum_round_trip t Hin w Hw) as [m [Hs' [Hm _]]].
  assert (n = m) by congruence. congruence.
Qed.

Lemma enum_unmarshal_iff t : In t all_enums -> forall s v,
  enum_unmarshal t s = Some v <->
  exists n, trims_to s n /\ 1 <= v /\ nth_error (en_names t) (N.to_nat v - 1) = Some n.
Proof.
  intros Hin s v. pose proof (all_enums_wf t Hin) as H.
  unfold enum_unmarshal, enum_from_string. split.
  - pose proof (enum_find_spec (trim_space s) (en_names t) 0) as Hf.
    destruct (enum_find (trim_space s) 0 (en_names t)) as [e|]; [|discriminate].
    intros [= <-]. exists (trim_space s). split; [apply trim_space_sound|].
    destruct Hf as [Hr Hf]. split; [lia|].
    replace (N.to_nat e - 1)%nat with (N.to_nat (e - 1 - 0)) by lia. exact Hf.
  - intros [n [Ht [Hv Hn]]].
    assert (enum_valid t v = true) as Hval.
    { apply (enum_valid_range t v H). split; [exact Hv|].
      assert (N.to_nat v - 1 < length (en_names t))%nat by (apply nth_error_Some; congruence). lia. }
    rewrite (trim_space_complete s n Ht).
    rewrite (enum_find_nth t v n H Hval); [reflexivity|].
    replace (N.to_nat (v - 1)) with (N.to_nat v - 1)%nat by lia. exact Hn.
Qed.

Lemma enum_from_string_total t : In t all_enums -> forall s,
  (exists v n, enum_from_string t s = (v, true) /\ enum_valid t v = true /\
               enum_string t v = Some n /\ In n (en_names t) /\ trims_to s n) \/
  (enum_from_string t s = (0, false) /\ enum_new t s = (0, false) /\
   forall n, In n (en_names t) -> ~ trims_to s n).
Proof.
  intros Hin s. pose proof (all_enums_wf t Hin) as H.
  destruct (enum_unmarshal t s) as [v|] eqn:E.
  - left. pose proof E as E'. apply (enum_unmarshal_iff t Hin) in E as [n [Ht [Hv Hn]]].
    assert (enum_valid t v = true) as Hval.
    { apply (enum_valid_range t v H). split; [exact Hv|].
      assert (N.to_nat v - 1 < length (en_names t))%nat by (apply nth_error_Some; congruence). lia. }
    exists v, n. split.
    + unfold enum_unmarshal in E'. destruct (enum_from_string t s) as [e [|]]; congruence.
    + split; [exact Hval|]. destruct (enum_string_valid t v H Hval) as [n' [Hs [Hi Hn']]].
      replace (N.to_nat (v - 1)) with (N.to_nat v - 1)%nat in Hn' by lia.
      assert (n' = n) by congruence. subst n'. auto.
  - right. assert (enum_from_string t s = (0, false)) as Hf.
    { unfold enum_unmarshal, enum_from_string in *. destruct (enum_find _ _ _); congruence. }
    split; [exact Hf|]. split; [unfold enum_new; rewrite Hf; reflexivity|].
    intros n Hn Ht. apply In_nth_error in Hn as [k Hk].
    assert (enum_unmarshal t s = Some (N.of_nat (S k))) as Hc.
    { apply (enum_unmarshal_iff t Hin). exists n. split; [exact Ht|]. split; [lia|].
      replace (N.to_nat (N.of_nat (S k)) - 1)%nat with k by lia. exact Hk. }
    congruence.
Qed.

Lemma enum_marshal_spec t : In t all_enums -> forall v,
  (exists n, 1 <= v /\ nth_error (en_names t) (N.to_nat v - 1) = Some n /\
             enum_marshal t v = Some (Some n) /\ enum_string t v = Some n) \/
  (~ (1 <= v <= N.of_nat (length (en_names t))) /\ enum_marshal t v = Some None /\
   (forall n, In n (en_names t) -> enum_string t v <> Some n) /\ enum_string t v <> None).
Proof.
  intros Hin v. pose proof (all_enums_wf t Hin) as H.
  destruct (enum_valid t v) eqn:Hv.
  - left. destruct (enum_string_valid t v H Hv) as [n [Hs [Hi Hn]]].
    pose proof Hv as Hr. apply (enum_valid_range t v H) in Hr.
    exists n. split; [lia|].
    replace (N.to_nat (v - 1)) with (N.to_nat v - 1)%nat in Hn by lia.
    split; [exact Hn|]. split; [|exact Hs].
    unfold enum_marshal. rewrite Hv. cbn [negb]. unfold enum_string in Hs. rewrite Hv in Hs.
    rewrite Hs. reflexivity.
  - right. split.
    + intros Hr. apply (enum_valid_range t v H) in Hr. congruence.
    + unfold enum_marshal, enum_string. rewrite Hv. split; [reflexivity|]. split; [|discriminate].
      intros n Hn [= Heq].
      assert (Hall : forallb (fun t => forallb (fun n => negb (has_prefix (bs "invalid ") n)) (en_names t)) all_enums = true)
        by (vm_compute; reflexivity).
      rewrite forallb_forall in Hall. specialize (Hall t Hin).
      rewrite forallb_forall in Hall. specialize (Hall n Hn).
      rewrite <- Heq in Hall. cbn in Hall. discriminate.
Qed.

(** ** Identifiers: constant identifiers spell the printed names. *)

Definition upc (c : ascii) : ascii := if is_lower c then chr (code c - 32) else c.
Definition upcase (s : str) : str := map upc s.
Definition no_spaces (s : str) : str := filter (fun c => negb (Ascii.eqb c " ")) s.

Definition spells (tyname : str) (ident name : str) : Prop :=
  upcase ident = upcase tyname ++ no_spaces name.

Fixpoint spells_allb (ty : str) (ids names : list str) : bool :=
  match ids, names with
  | [], [] => true
  | i :: ids', n :: names' =>
      str_eqb (upcase i) (upcase ty ++ no_spaces n) && spells_allb ty ids' names'
  | _, _ => false
  end.

Lemma spells_allb_spec ty : forall ids names, spells_allb ty ids names = true ->
  length ids = length names /\
  forall k i, nth_error ids k = Some i ->
  exists n, nth_error names k = Some n /\ spells ty i n.
Proof.
  induction ids as [|i ids IH]; intros [|n names] H; cbn [spells_allb] in H; try discriminate.
  - split; [reflexivity|]. intros [|k] j Hk; discriminate.
  - apply andb_true_iff in H as [H1 H2]. destruct (IH names H2) as [Hl Hk].
    split; [cbn; lia|]. intros [|k] j Hj; cbn [nth_error] in *.
    + injection Hj as <-. exists n. split; [reflexivity|apply str_eqb_eq, H1].
    + apply Hk, Hj.
Qed.

Lemma enum_idents_check :
  forallb (fun '(t, (ty, ids)) => spells_allb ty ids (en_names t)) enum_idents = true.
Proof. vm_compute. reflexivity. Qed.

Lemma enum_idents_enums : map fst enum_idents = all_enums.
Proof. reflexivity. Qed.

Lemma enum_ident_string t ty ids : In (t, (ty, ids)) enum_idents ->
  forall v, (1 <= v <= N.of_nat (length ids) <-> enum_valid t v = true) /\
  forall i, 1 <= v -> nth_error ids (N.to_nat v - 1) = Some i ->
  exists n, enum_string t v = Some n /\ spells ty i n.
Proof.
  intros Hin v.
  assert (Ht : In t all_enums).
  { rewrite <- enum_idents_enums. apply (in_map fst) in Hin. exact Hin. }
  pose proof (all_enums_wf t Ht) as H.
  pose proof enum_idents_check as Hall. rewrite forallb_forall in Hall.
  specialize (Hall _ Hin). cbv beta iota in Hall.
  destruct (spells_allb_spec _ _ _ Hall) as [Hl Hk].
  rewrite (enum_valid_range t v H), Hl. split; [reflexivity|].
  intros i Hv Hi.
  assert (enum_valid t v = true) as Hval.
  { apply (enum_valid_range t v H). rewrite <- Hl. split; [exact Hv|].
    assert (N.to_nat v - 1 < length ids)%nat by (apply nth_error_Some; congruence). lia. }
  destruct (enum_string_valid t v H Hval) as [n [Hs [_ Hn]]].
  replace (N.to_nat (v - 1)) with (N.to_nat v - 1)%nat in Hn by lia.
  destruct (Hk _ _ Hi) as [n' [Hn' Hsp]]. exists n. split; [exact Hs|]. congruence.
Qed.

(** ** Versions *)

Definition versions : list N := map N.of_nat (seq 1 11).

Lemma valid_versions v : enum_valid enum_ofxVersion v = true -> In v versions.
Proof.
  intros H. apply enum_valid_range in H; [|apply all_enums_wf; left; reflexivity].
  change (N.of_nat (length (en_names enum_ofxVersion))) with 11 in H.
  apply in_map_iff. exists (N.to_nat v). split; [lia|]. apply in_seq. lia.
Qed.

From Verif Require SpecNum GoNumFacts.

Definition version_num (v : N) : Z :=
  nth (N.to_nat v) [0; 102; 103; 151; 160; 200; 201; 202; 203; 210; 211; 220]%Z 0%Z.

Lemma version_string_num v : enum_valid enum_ofxVersion v = true ->
  exists n, enum_string enum_ofxVersion v = Some n /\ SpecNum.digits n (version_num v) /\
            1 <= v <= 11.
Proof.
  intros H. pose proof (valid_versions v H) as Hin. unfold versions in Hin. cbn in Hin.
  repeat (destruct Hin as [<-|Hin];
    [eexists; split; [reflexivity|]; split; [apply GoNumFacts.digits_iff; split; vm_compute; reflexivity|lia]|]).
  destruct Hin.
Qed.

Lemma version_order v w :
  enum_valid enum_ofxVersion v = true -> enum_valid enum_ofxVersion w = true ->
  exists nv nw zv zw,
    enum_string enum_ofxVersion v = Some nv /\ enum_string enum_ofxVersion w = Some nw /\
    SpecNum.digits nv zv /\ SpecNum.digits nw zw /\
    (v < w <-> (zv < zw)%Z) /\
    (v <= OfxVersion160 <-> (zv < 200)%Z) /\ (OfxVersion200 <= v <-> (200 <= zv)%Z).
Proof.
  intros Hv Hw.
  destruct (version_string_num v Hv) as [nv [Sv [Dv Rv]]].
  destruct (version_string_num w Hw) as [nw [Sw [Dw Rw]]].
  exists nv, nw, (version_num v), (version_num w).
  split; [exact Sv|]. split; [exact Sw|]. split; [exact Dv|]. split; [exact Dw|].
  assert (Hcheck : forallb (fun a => forallb (fun b =>
      Bool.eqb (a <? b) (version_num a <? version_num b)%Z &&
      Bool.eqb (a <=? OfxVersion160) (version_num a <? 200)%Z &&
      Bool.eqb (OfxVersion200 <=? a) (200 <=? version_num a)%Z) versions) versions = true)
    by (vm_compute; reflexivity).
  rewrite forallb_forall in Hcheck. specialize (Hcheck v (valid_versions v Hv)).
  rewrite forallb_forall in Hcheck. specialize (Hcheck w (valid_versions w Hw)).
  rewrite !andb_true_iff, !Bool.eqb_true_iff in Hcheck. lia.
Qed.
