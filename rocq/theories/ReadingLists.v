(** Reading the lists with a hand-written UnmarshalXML method: message sets and
    investment transactions. *)
From Coq Require Import String QArith.
From Verif Require Import GoStr GoStrFacts GoTime Types Enums EnumTables Records Codec CodecFacts CodecSim Schema SpecReading ReadingFacts.
Close Scope Q_scope.
Open Scope list_scope.

(** ** Message sets *)

Lemma solid_pairs e kids : filter (fun d : node * decoders => match fst d with Text s => negb (blank s) | _ => true end)
    (map (fun k => (k, decode e k)) kids) = map (fun k => (k, decode e k)) (solid kids).
Proof.
  induction kids as [|n kids IH]; [reflexivity|]. unfold solid in *. cbn [map filter fst].
  destruct n as [nm k|s|]; [|destruct (negb (blank s))|]; cbn [map]; rewrite IH; reflexivity.
Qed.

Lemma msgset_iff e fs nm sub vname r : paths_ok (sigs (FCons [] (bs "Name") false (TLeaf LString) fs)) = true ->
  d_msgset (decode e (Elem nm sub)) fs = Some (vname, r) <->
  exists k, solid sub = [Elem vname k] /\ walks e fs [] k (zero_flds fs) = Some r.
Proof.
  intros Hok. cbn [decode d_msgset]. rewrite solid_pairs.
  assert (Hin : forall m k, option_map (fun r0 : interp (TStruct [] (FCons [] (bs "Name") false (TLeaf LString) fs)) => (m, snd r0))
      (d_value (decode e (Elem m k)) (TStruct [] (FCons [] (bs "Name") false (TLeaf LString) fs)) ([], zero_flds fs)) = Some (vname, r) <->
      m = vname /\ walks e fs [] k (zero_flds fs) = Some r).
  { intros m k.
    change (d_value (decode e (Elem m k)) (TStruct [] (FCons [] (bs "Name") false (TLeaf LString) fs)) ([], zero_flds fs))
      with (unmarshal e (TStruct [] (FCons [] (bs "Name") false (TLeaf LString) fs)) (Elem m k) ([], zero_flds fs)).
    rewrite struct_fits by reflexivity.
    assert (Hok' : paths_ok (sigs fs) = true) by (cbn [sigs] in Hok; apply paths_ok_cons in Hok as [_ H]; exact H).
    assert (Htot : forall ks v, exists v', into e (TLeaf LString) (bs "Name") ks v = Some v').
    { intros ks. induction ks as [|k' ks IH]; intros v; [exists v; reflexivity|]. rewrite into_cons, unmarshal_leaf. cbn [leaf_unmarshal bind]. apply IH. }
    destruct (walks e (FCons [] (bs "Name") false (TLeaf LString) fs) [] k ([], zero_flds fs)) as [[x w]|] eqn:E.
    - apply walks_iff in E; [|exact Hok]. destruct E as [_ E]. cbn [snd] in E. apply walks_iff in E; [|exact Hok'].
      change (option_map (fun r0 : str * interp_flds fs => (m, snd r0)) (Some (x, w))) with (Some (m, w)). rewrite E.
      split; [intros [= -> ->]; auto | intros [-> [= ->]]; reflexivity].
    - cbn [option_map]. split; [discriminate|]. intros [-> Hw]. exfalso.
      destruct (Htot (hits [] (bs "Name") k) []) as [x Hx].
      assert (Hr : fields_run e (FCons [] (bs "Name") false (TLeaf LString) fs) [] k ([], zero_flds fs) (x, r)).
      { cbn [fields_run fst snd]. split; [exact Hx|]. apply walks_iff; assumption. }
      apply walks_iff in Hr; [|exact Hok].
      change (walks e (FCons [] (bs "Name") false (TLeaf LString) fs) [] k ([], zero_flds fs) = Some (x, r)) in Hr. congruence. }
  destruct (solid sub) as [|n [|n' l]]; cbn [map].
  - split; [discriminate | intros (k & H & _); discriminate H].
  - destruct n as [m k|s|].
    + rewrite Hin. split; [intros [-> H]; eauto | intros (k' & [= -> ->] & H); auto].
    + split; [discriminate | intros (k & H & _); discriminate H].
    + split; [discriminate | intros (k & H & _); discriminate H].
  - destruct n; (split; [discriminate | intros (k' & H & _); discriminate H]).
Qed.

Lemma read_msgsets {A} e fs (name : A -> str) (to : A -> interp_flds fs) R nm kids l :
  paths_ok (sigs (FCons [] (bs "Name") false (TLeaf LString) fs)) = true -> reads_struct e fs to R ->
  into e (TMsgSets fs) (bs nm) (kids_of (bs nm) kids) (zero (TMsgSets fs)) = Some (map (fun m => (name m, to m)) l) <->
  are_listed (fun _ sub m => exists k, solid sub = [Elem (name m) k] /\ R k m) (inner nm kids) l.
Proof.
  intros Hok H. rewrite into_msgsets. cbn [zero]. change (concat (kids_of (bs nm) kids)) with (inner nm kids).
  rewrite steps_solid. unfold are_listed.
  transitivity (exists vs, Forall2 (fun n x => (exists nm k, n = Elem nm k) /\ d_msgset (decode e n) fs = Some x)
    (solid (inner nm kids)) vs /\ map (fun m => (name m, to m)) l = [] ++ vs).
  { exact (steps_append e (fun n => d_msgset (decode e n) fs) (inner nm kids) [] (map (fun m => (name m, to m)) l)). }
  cbn [app].
  rewrite <- (Forall2_map_iff (fun n x => (exists nm k, n = Elem nm k) /\ d_msgset (decode e n) fs = Some x)
    (fun n v => exists nm0 k, n = Elem nm0 k /\ exists k0, solid k = [Elem (name v) k0] /\ R k0 v) (fun m => (name m, to m))).
  - split; [intros (vs & F & <-); exact F | intros F; eexists; split; [exact F | reflexivity]].
  - intros n v. split.
    + intros [(m & k & ->) Hm]. exists m, k. split; [reflexivity|]. apply msgset_iff in Hm as (k' & Hs & Hm); [|exact Hok].
      exists k'. split; [exact Hs|]. apply H. exact Hm.
    + intros (m & k & -> & k' & Hs & Hm). split; [eauto|]. apply msgset_iff; [exact Hok|]. exists k'. split; [exact Hs|]. apply H. exact Hm.
Qed.

(** ** A list of one kind of alternatives (SecurityList) *)

Lemma has_alt_match a nm k : has_alt a nm = false -> match_alts a nm k = None.
Proof.
  induction a as [|rd wr t a IH]; [reflexivity|]. cbn [has_alt match_alts].
  destruct (str_eqb rd nm); [discriminate|]. intros H. rewrite IH by exact H. reflexivity.
Qed.

Lemma read_only_alts {A} e a (to : A -> interp_alts a) R : reads_alt e a to R ->
  forall kids l, steps e (cust_step e (FCons [] (bs "") false (TAlts a) FNil)) kids ([], tt) = Some (map to l, tt) <-> are_listed R kids l.
Proof.
  intros H kids l. rewrite steps_solid.
  assert (E : forall ks v, steps e (cust_step e (FCons [] (bs "") false (TAlts a) FNil)) ks (v, tt) =
    option_map (fun x => (x, tt)) (steps e (fun n _ l => option_map (fun x => l ++ [x]) (match_alts a (name_of n) (d_value (decode e n)))) ks v)).
  { intros ks. induction ks as [|n ks IH]; intros v; [reflexivity|]. unfold steps in *. cbn [map run_all].
    destruct n as [m k|s|]; cbn [token_step]; [|destruct (blank s); cbn [bind]; auto|reflexivity].
    unfold cust_step at 1. cbn [match_custom name_of fst snd].
    destruct (has_alt a m) eqn:Ea.
    - change (d_value (decode e (Elem m k)) (TAlts a) v) with (unmarshal e (TAlts a) (Elem m k) v).
      rewrite unmarshal_alts. destruct (match_alts a m (d_value (decode e (Elem m k)))) as [x|]; cbn [option_map bind]; [apply IH | reflexivity].
    - rewrite (has_alt_match a m _ Ea). reflexivity. }
  rewrite E.
  transitivity (steps e (fun n _ l => option_map (fun x => l ++ [x]) (match_alts a (name_of n) (d_value (decode e n)))) (solid kids) [] = Some (map to l)).
  { destruct (steps e _ (solid kids) []) as [w|]; cbn [option_map]; split; intros Hw; try discriminate Hw; congruence. }
  transitivity (exists vs, Forall2 (fun n x => (exists nm k, n = Elem nm k) /\ match_alts a (name_of n) (d_value (decode e n)) = Some x)
    (solid kids) vs /\ map to l = [] ++ vs); [exact (steps_append e (fun n => match_alts a (name_of n) (d_value (decode e n))) kids [] (map to l))|].
  cbn [app]. unfold are_listed.
  rewrite <- (Forall2_map_iff (fun n x => (exists nm k, n = Elem nm k) /\ match_alts a (name_of n) (d_value (decode e n)) = Some x)
    (fun n v => exists nm0 k, n = Elem nm0 k /\ R nm0 k v) to).
  - split; [intros (vs & F & <-); exact F | intros F; eexists; split; [exact F | reflexivity]].
  - intros n v. split.
    + intros [(m & k & ->) Hm]. exists m, k. split; [reflexivity|]. apply H. exact Hm.
    + intros (m & k & -> & Hm). split; [eauto|]. apply H. exact Hm.
Qed.

(** ** Investment transactions *)

Definition tran_fields (a : alts) (t : ty) : flds :=
  FCons [] (bs "DTSTART") false (TLeaf LDate)
  (FCons [] (bs "DTEND") false (TLeaf LDate)
  (FCons [] (bs "") false (TAlts a)
  (FCons [] (bs "INVBANKTRAN") false (TSlice t) FNil))).

Definition tran_others : list node -> list node := others ["DTSTART"%string; "DTEND"%string; "INVBANKTRAN"%string].

(** What the children do, from any values of the fields on. *)
Definition tran_run (e : env) (a : alts) (t : ty) (kids : list node)
  (d1 d2 : gotime) (l : list (interp_alts a)) (b : list (interp t))
  (d1' d2' : gotime) (l' : list (interp_alts a)) (b' : list (interp t)) : Prop :=
  into e (TLeaf LDate) (bs "DTSTART") (kids_of (bs "DTSTART") kids) d1 = Some d1' /\
  into e (TLeaf LDate) (bs "DTEND") (kids_of (bs "DTEND") kids) d2 = Some d2' /\
  (exists vs, Forall2 (fun n x => exists nm k, n = Elem nm k /\ match_alts a nm (d_value (decode e n)) = Some x) (solid (tran_others kids)) vs /\ l' = l ++ vs) /\
  into e (TSlice t) (bs "INVBANKTRAN") (kids_of (bs "INVBANKTRAN") kids) b = Some b'.

Lemma tran_step e a t nm k d1 d2 l b :
  forallb (fun n => negb (has_alt a n)) [bs "DTSTART"; bs "DTEND"; bs "INVBANKTRAN"] = true ->
  cust_step e (tran_fields a t) (Elem nm k) nm (d1, (d2, (l, (b, tt)))) =
  if str_eqb (bs "DTSTART") nm then option_map (fun x => (x, (d2, (l, (b, tt))))) (unmarshal e (TLeaf LDate) (Elem nm k) d1)
  else if str_eqb (bs "DTEND") nm then option_map (fun x => (d1, (x, (l, (b, tt))))) (unmarshal e (TLeaf LDate) (Elem nm k) d2)
  else if str_eqb (bs "INVBANKTRAN") nm then option_map (fun x => (d1, (d2, (l, (x, tt))))) (unmarshal e (TSlice t) (Elem nm k) b)
  else option_map (fun x => (d1, (d2, (l ++ [x], (b, tt))))) (match_alts a nm (d_value (decode e (Elem nm k)))).
Proof.
  intros Ha. cbn [forallb] in Ha. apply Bool.andb_true_iff in Ha as [_ Ha]. apply Bool.andb_true_iff in Ha as [_ Ha].
  apply Bool.andb_true_iff in Ha as [Ha _]. apply Bool.negb_true_iff in Ha.
  unfold cust_step, tran_fields. cbn [match_custom fst snd].
  change (d_value (decode e (Elem nm k))) with (fun t v => unmarshal e t (Elem nm k) v). cbn beta.
  destruct (str_eqb (bs "DTSTART") nm) eqn:E1; [reflexivity|].
  destruct (str_eqb (bs "DTEND") nm) eqn:E2; [destruct (unmarshal e (TLeaf LDate) (Elem nm k) d2); reflexivity|].
  destruct (str_eqb (bs "INVBANKTRAN") nm) eqn:E3.
  - apply str_eqb_eq in E3 as <-. rewrite Ha. destruct (unmarshal e (TSlice t) (Elem (bs "INVBANKTRAN") k) b); reflexivity.
  - rewrite unmarshal_alts. change (d_value (decode e (Elem nm k))) with (fun t v => unmarshal e t (Elem nm k) v).
    destruct (has_alt a nm) eqn:E4.
    + destruct (match_alts a nm _); reflexivity.
    + rewrite has_alt_match by exact E4. reflexivity.
Qed.

Lemma kids_of_cons nm m k kids : kids_of nm (Elem m k :: kids) = if str_eqb m nm then k :: kids_of nm kids else kids_of nm kids.
Proof. unfold kids_of. cbn [flat_map]. destruct (str_eqb m nm); reflexivity. Qed.

Lemma tran_others_cons m k kids : solid (tran_others (Elem m k :: kids)) =
  if str_eqb m (bs "DTSTART") || (str_eqb m (bs "DTEND") || (str_eqb m (bs "INVBANKTRAN") || false)) then solid (tran_others kids)
  else Elem m k :: solid (tran_others kids).
Proof. unfold tran_others, others. cbn [filter existsb]. destruct (_ || _); reflexivity. Qed.

Theorem tran_iff e a t :
  forallb (fun n => negb (has_alt a n)) [bs "DTSTART"; bs "DTEND"; bs "INVBANKTRAN"] = true ->
  forall kids d1 d2 l b d1' d2' l' b',
  steps e (cust_step e (tran_fields a t)) kids (d1, (d2, (l, (b, tt)))) = Some (d1', (d2', (l', (b', tt)))) <->
  tran_run e a t kids d1 d2 l b d1' d2' l' b'.
Proof.
  intros Ha kids. induction kids as [|n kids IH]; intros.
  - unfold tran_run. cbn [steps map run_all]. split.
    + intros [= <- <- <- <-]. repeat split. exists []. rewrite app_nil_r. split; [constructor | reflexivity].
    + intros ([= ->] & [= ->] & (vs & F & ->) & [= ->]). inversion F. rewrite app_nil_r. reflexivity.
  - unfold steps in *. cbn [map run_all]. destruct n as [nm k|s|]; cbn [token_step].
    + rewrite tran_step by exact Ha. unfold tran_run. rewrite !kids_of_cons, tran_others_cons.
      rewrite !(str_eqb_sym nm).
      destruct (str_eqb (bs "DTSTART") nm) eqn:E1.
      { apply str_eqb_eq in E1 as <-. replace (str_eqb (bs "DTEND") (bs "DTSTART")) with false by reflexivity.
        replace (str_eqb (bs "INVBANKTRAN") (bs "DTSTART")) with false by reflexivity. cbn [orb].
        rewrite into_cons. destruct (unmarshal e (TLeaf LDate) (Elem (bs "DTSTART") k) d1) as [x|]; cbn [option_map bind].
        - exact (IH x d2 l b d1' d2' l' b').
        - split; [discriminate | intros (H & _); discriminate H]. }
      destruct (str_eqb (bs "DTEND") nm) eqn:E2.
      { apply str_eqb_eq in E2 as <-. replace (str_eqb (bs "INVBANKTRAN") (bs "DTEND")) with false by reflexivity. cbn [orb].
        rewrite into_cons. destruct (unmarshal e (TLeaf LDate) (Elem (bs "DTEND") k) d2) as [x|]; cbn [option_map bind].
        - exact (IH d1 x l b d1' d2' l' b').
        - split; [discriminate | intros (_ & H & _); discriminate H]. }
      destruct (str_eqb (bs "INVBANKTRAN") nm) eqn:E3; cbn [orb].
      { apply str_eqb_eq in E3 as <-.
        rewrite into_cons. destruct (unmarshal e (TSlice t) (Elem (bs "INVBANKTRAN") k) b) as [x|]; cbn [option_map bind].
        - exact (IH d1 d2 l x d1' d2' l' b').
        - split; [discriminate | intros (_ & _ & _ & H); discriminate H]. }
      destruct (match_alts a nm (d_value (decode e (Elem nm k)))) as [x|] eqn:E4; cbn [option_map bind].
      * refine (iff_trans (IH d1 d2 (l ++ [x]) b d1' d2' l' b') _). unfold tran_run. split.
        -- intros (H1 & H2 & (vs & F & ->) & H4). repeat split; try assumption. exists (x :: vs). rewrite <- app_assoc.
           split; [constructor; [eauto | exact F] | reflexivity].
        -- intros (H1 & H2 & (vs & F & ->) & H4). repeat split; try assumption.
           inversion F as [|? y ? vs' Hq Hvs]; subst. destruct Hq as (m' & k' & Hq & Hy). injection Hq as <- <-. rewrite E4 in Hy. injection Hy as <-.
           exists vs'. rewrite <- app_assoc. auto.
      * split; [discriminate|]. intros (_ & _ & (vs & F & _) & _).
        inversion F as [|? y ? vs' Hq Hvs]; subst. destruct Hq as (m' & k' & Hq & Hy). injection Hq as <- <-. congruence.
    + destruct (blank s) eqn:Eb; cbn [bind].
      * refine (iff_trans (IH d1 d2 l b d1' d2' l' b') _). unfold tran_run.
        replace (solid (tran_others (Text s :: kids))) with (solid (tran_others kids)); [reflexivity|].
        unfold tran_others, others, solid. cbn [filter]. rewrite Eb. reflexivity.
      * split; [discriminate|]. intros (_ & _ & (vs & F & _) & _).
        unfold tran_others, others, solid in F. cbn [filter] in F. rewrite Eb in F. cbn [negb] in F.
        inversion F as [|? y ? vs' Hq Hvs]; subst. destruct Hq as (m' & k' & Hm & _). discriminate Hm.
    + cbn [bind]. split; [discriminate|]. intros (_ & _ & (vs & F & _) & _).
      unfold tran_others, others, solid in F. cbn [filter] in F.
      inversion F as [|? y ? vs' Hq Hvs]; subst. destruct Hq as (m' & k' & Hm & _). discriminate Hm.
Qed.
