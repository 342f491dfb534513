(** The fields of a struct are read independently of each other: each from the
    elements on its own path. *)
From Coq Require Import String QArith.
From Verif Require Import GoStr GoStrFacts GoTime Types Enums EnumTables Records Codec CodecFacts CodecSim SpecReading.
Close Scope Q_scope.
Open Scope list_scope.

(** ** Elements on a path *)

Definition kids_of (nm : str) (kids : list node) : list (list node) :=
  flat_map (fun n => match n with Elem x k => if str_eqb x nm then [k] else [] | _ => [] end) kids.

Fixpoint hits (ps : list str) (n : str) (kids : list node) : list (list node) :=
  match ps with
  | [] => kids_of n kids
  | p :: ps' => hits ps' n (concat (kids_of p kids))
  end.

Lemma kids_of_app nm a b : kids_of nm (a ++ b) = kids_of nm a ++ kids_of nm b.
Proof. apply flat_map_app. Qed.

Lemma hits_app ps n : forall a b, hits ps n (a ++ b) = hits ps n a ++ hits ps n b.
Proof.
  induction ps as [|p ps IH]; intros a b; simpl; [apply kids_of_app|].
  rewrite kids_of_app, concat_app. apply IH.
Qed.

Lemma hits_nil ps n : hits ps n [] = [].
Proof. induction ps; simpl; auto. Qed.

(** Decoding one element after the other into the same variable. *)
Definition into (e : env) (t : ty) (n : str) (ks : list (list node)) (v : interp t) : option (interp t) :=
  run_all (map (fun k => unmarshal e t (Elem n k)) ks) v.

Lemma into_app e t n a b v : into e t n (a ++ b) v = bind (into e t n a v) (into e t n b).
Proof. unfold into. rewrite map_app. apply run_all_app. Qed.

(** ** What the elements in [kids], found below [parents], do to the fields *)

Definition field_run (e : env) (ps : list str) (n : str) (t : ty) (parents : list str) (kids : list node)
  (x x' : interp t) : Prop :=
  match strip_prefix parents ps with
  | None => x' = x
  | Some r => into e t n (hits r n kids) x = Some x'
  end.

Fixpoint fields_run (e : env) (fs : flds) (parents : list str) (kids : list node) :
  interp_flds fs -> interp_flds fs -> Prop :=
  match fs return interp_flds fs -> interp_flds fs -> Prop with
  | FNil => fun _ _ => True
  | FCons ps n _ t fs' => fun v v' =>
      field_run e ps n t parents kids (fst v) (fst v') /\ fields_run e fs' parents kids (snd v) (snd v')
  end.

Lemma field_run_nil e ps n t parents x x' : field_run e ps n t parents [] x x' <-> x' = x.
Proof.
  unfold field_run. destruct (strip_prefix parents ps) as [r|]; [|tauto].
  rewrite hits_nil. cbn. split; [intros [= ->] | intros ->]; reflexivity.
Qed.

Lemma fields_run_nil e fs parents v v' : fields_run e fs parents [] v v' <-> v' = v.
Proof.
  induction fs as [|ps n om t fs IH]; cbn [fields_run interp_flds] in *.
  - destruct v, v'. tauto.
  - rewrite field_run_nil, IH. destruct v, v'; cbn. split; [intros [-> ->]; reflexivity | intros [= -> ->]; auto].
Qed.

Lemma field_run_app e ps n t parents a b x x' :
  field_run e ps n t parents (a ++ b) x x' <->
  exists y, field_run e ps n t parents a x y /\ field_run e ps n t parents b y x'.
Proof.
  unfold field_run. destruct (strip_prefix parents ps) as [r|].
  - rewrite hits_app, into_app. destruct (into e t n (hits r n a) x) as [y|]; cbn [bind].
    + split; [eauto | intros (z & [= <-] & H); exact H].
    + split; [discriminate | intros (z & H & _); discriminate].
  - split; [eauto | intros (y & -> & ->); reflexivity].
Qed.

Lemma fields_run_app e fs parents a b v v' :
  fields_run e fs parents (a ++ b) v v' <->
  exists w, fields_run e fs parents a v w /\ fields_run e fs parents b w v'.
Proof.
  induction fs as [|ps n om t fs IH]; cbn [fields_run interp_flds] in *.
  - split; [exists tt; auto | auto].
  - rewrite field_run_app, IH. split.
    + intros ((x & Hx & Hx') & w & Hw & Hw'). exists (x, w). auto.
    + intros ((x & w) & (Hx & Hw) & Hx' & Hw'). cbn in *. split; eauto.
Qed.

Lemma strip_prefix_snoc a x l :
  strip_prefix (a ++ [x]) l =
  match strip_prefix a l with Some (y :: r) => if str_eqb x y then Some r else None | _ => None end.
Proof.
  revert l. induction a as [|y a IH]; intros l; cbn [strip_prefix app].
  - destruct l as [|y l]; cbn; auto. 
  - destruct l as [|z l]; auto. destruct (str_eqb y z); auto.
Qed.

(** One element, seen by one field. *)
Lemma field_one e ps n t parents nm kids x x' :
  field_run e ps n t parents [Elem nm kids] x x' <->
  match strip_prefix parents ps with
  | None => x' = x
  | Some [] => if str_eqb n nm then unmarshal e t (Elem n kids) x = Some x' else x' = x
  | Some (p :: r) => if str_eqb p nm then field_run e ps n t (parents ++ [nm]) kids x x' else x' = x
  end.
Proof.
  unfold field_run. rewrite strip_prefix_snoc. destruct (strip_prefix parents ps) as [[|p r]|]; [| |tauto].
  - cbn [hits kids_of flat_map]. rewrite (str_eqb_sym nm n). destruct (str_eqb n nm); unfold into; cbn [app map run_all].
    + destruct (unmarshal e t (Elem n kids) x) as [y|]; cbn [bind]; tauto.
    + split; [intros [= ->] | intros ->]; reflexivity.
  - cbn [hits kids_of flat_map]. rewrite (str_eqb_sym nm p). destruct (str_eqb p nm); cbn.
    + rewrite app_nil_r. tauto.
    + rewrite hits_nil. cbn. split; [intros [= ->] | intros ->]; reflexivity.
Qed.

Lemma match_hit fs parents nm k v o : match_fields fs parents nm k v = Hit o -> In (parents ++ [nm]) (sigs fs).
Proof.
  induction fs as [|ps n om t fs IH]; cbn [match_fields sigs]; [discriminate|].
  assert (Hn : found_map (pair (fst v)) (match_fields fs parents nm k (snd v)) = Hit o ->
    In (parents ++ [nm]) ((ps ++ [n]) :: sigs fs)).
  { intros H. destruct (match_fields fs parents nm k (snd v)) as [| |o'] eqn:E; try discriminate H.
    right. eapply IH. exact E. }
  destruct (strip_prefix parents ps) as [[|p r]|] eqn:E; [| |exact Hn].
  - apply strip_prefix_spec in E. rewrite app_nil_r in E. subst ps.
    destruct (str_eqb n nm) eqn:En; [|exact Hn]. apply str_eqb_eq in En as ->. left. reflexivity.
  - destruct (str_eqb p nm); [discriminate | exact Hn].
Qed.

Lemma match_below fs parents nm k v : match_fields fs parents nm k v = Prefix ->
  exists q, In q (sigs fs) /\ prefixb (parents ++ [nm]) q = true.
Proof.
  induction fs as [|ps n om t fs IH]; cbn [match_fields sigs]; [discriminate|].
  assert (Hn : found_map (pair (fst v)) (match_fields fs parents nm k (snd v)) = Prefix ->
    exists q, In q ((ps ++ [n]) :: sigs fs) /\ prefixb (parents ++ [nm]) q = true).
  { intros H. destruct (match_fields fs parents nm k (snd v)) as [| |o'] eqn:E; try discriminate H.
    destruct (IH _ E) as (q & Hq & Hp). exists q. split; [right; exact Hq | exact Hp]. }
  destruct (strip_prefix parents ps) as [[|p r]|] eqn:E; [| |exact Hn].
  - destruct (str_eqb n nm); [discriminate | exact Hn].
  - destruct (str_eqb p nm) eqn:Ep; [|exact Hn]. intros _. apply str_eqb_eq in Ep as ->.
    exists (ps ++ [n]). split; [left; reflexivity|]. apply strip_prefix_spec in E as ->.
    apply prefixb_spec. exists (r ++ [n]). rewrite <- !app_assoc. reflexivity.
Qed.

Lemma match_spec e fs parents nm kids v : paths_ok (sigs fs) = true ->
  match match_fields fs parents nm (d_value (decode e (Elem nm kids))) v with
  | NoMatch => forall v', (fields_run e fs parents [Elem nm kids] v v' <-> v' = v) /\
                          (fields_run e fs (parents ++ [nm]) kids v v' <-> v' = v)
  | Prefix => forall v', fields_run e fs parents [Elem nm kids] v v' <-> fields_run e fs (parents ++ [nm]) kids v v'
  | Hit o => forall v', fields_run e fs parents [Elem nm kids] v v' <-> o = Some v'
  end.
Proof.
  induction fs as [|ps n om t fs IH]; intros Hok.
  - cbn [match_fields fields_run interp_flds] in *. intros []. destruct v. tauto.
  - cbn [sigs] in Hok. apply paths_ok_cons in Hok as [Hno Hok]. specialize (IH (snd v) Hok).
    cbn [match_fields]. destruct v as [x v]. cbn [fst snd] in *.
    assert (Hskip : (forall x', field_run e ps n t parents [Elem nm kids] x x' <-> x' = x) ->
      (forall x', field_run e ps n t (parents ++ [nm]) kids x x' <-> x' = x) ->
      match found_map (pair x) (match_fields fs parents nm (d_value (decode e (Elem nm kids))) v) with
      | NoMatch => forall v', (fields_run e (FCons ps n om t fs) parents [Elem nm kids] (x, v) v' <-> v' = (x, v)) /\
                              (fields_run e (FCons ps n om t fs) (parents ++ [nm]) kids (x, v) v' <-> v' = (x, v))
      | Prefix => forall v', fields_run e (FCons ps n om t fs) parents [Elem nm kids] (x, v) v' <->
                             fields_run e (FCons ps n om t fs) (parents ++ [nm]) kids (x, v) v'
      | Hit o => forall v', fields_run e (FCons ps n om t fs) parents [Elem nm kids] (x, v) v' <-> o = Some v'
      end).
    { intros H1 H2. destruct (match_fields fs parents nm (d_value (decode e (Elem nm kids))) v) as [| |o] eqn:E; cbn [found_map].
      - intros [x' v']. cbn [fields_run fst snd]. rewrite H1, H2, (proj1 (IH v')), (proj2 (IH v')).
        split; (split; [intros [-> ->]; reflexivity | intros [= -> ->]; auto]).
      - intros [x' v']. cbn [fields_run fst snd]. rewrite H1, H2, (IH v'). tauto.
      - intros [x' v']. cbn [fields_run fst snd]. rewrite H1, (IH v'). destruct o as [w|]; cbn [option_map].
        + split; [intros [-> [= ->]]; reflexivity | intros [= -> ->]; auto].
        + split; [intros [_ H]; discriminate H | discriminate]. }
    destruct (strip_prefix parents ps) as [[|p r]|] eqn:E.
    + destruct (str_eqb n nm) eqn:En.
      * (* this field *)
        apply str_eqb_eq in En as ->. apply strip_prefix_spec in E. rewrite app_nil_r in E. subst ps.
        assert (Hrest : match_fields fs parents nm (d_value (decode e (Elem nm kids))) v = NoMatch).
        { destruct (match_fields fs parents nm (d_value (decode e (Elem nm kids))) v) as [| |o] eqn:E; [reflexivity| |].
          - apply match_below in E as (q & Hq & Hp). destruct (Hno q Hq) as [H _]. congruence.
          - apply match_hit in E. destruct (Hno _ E) as [H _].
            assert (prefixb (parents ++ [nm]) (parents ++ [nm]) = true)
              by (apply prefixb_spec; exists []; rewrite app_nil_r; reflexivity). congruence. }
        rewrite Hrest in IH. intros [x' v']. cbn [fields_run fst snd].
        rewrite field_one, strip_prefix_self, str_eqb_refl, (proj1 (IH v')).
        fold (unmarshal e t (Elem nm kids) x). destruct (unmarshal e t (Elem nm kids) x) as [y|]; cbn [option_map].
        -- split; [intros [[= ->] ->]; reflexivity | intros [= -> ->]; auto].
        -- split; [intros [H _]; discriminate H | discriminate].
      * apply Hskip; intros x'.
        -- rewrite field_one, E, En. tauto.
        -- unfold field_run. rewrite strip_prefix_snoc, E. tauto.
    + destruct (str_eqb p nm) eqn:Ep.
      * assert (Hrest : forall o, match_fields fs parents nm (d_value (decode e (Elem nm kids))) v <> Hit o).
        { intros o Ho. apply match_hit in Ho. destruct (Hno _ Ho) as [_ H].
          apply str_eqb_eq in Ep as ->. apply strip_prefix_spec in E as ->.
          assert (prefixb (parents ++ [nm]) ((parents ++ nm :: r) ++ [n]) = true)
            by (apply prefixb_spec; exists (r ++ [n]); rewrite <- !app_assoc; reflexivity). congruence. }
        intros [x' v']. cbn [fields_run fst snd]. rewrite field_one, E, Ep.
        destruct (match_fields fs parents nm (d_value (decode e (Elem nm kids))) v) as [| |o] eqn:Em.
        -- rewrite (proj1 (IH v')), (proj2 (IH v')). tauto.
        -- rewrite (IH v'). tauto.
        -- exfalso. exact (Hrest o eq_refl).
      * apply Hskip; intros x'.
        -- rewrite field_one, E, Ep. tauto.
        -- unfold field_run. rewrite strip_prefix_snoc, E, (str_eqb_sym nm p), Ep. tauto.
    + apply Hskip; intros x'.
      * rewrite field_one, E. tauto.
      * unfold field_run. rewrite strip_prefix_snoc, E. tauto.
Qed.

Lemma fields_run_other e fs parents n v v' : (forall nm k, n <> Elem nm k) ->
  fields_run e fs parents [n] v v' <-> v' = v.
Proof.
  intros Hn. rewrite <- (fields_run_nil e fs parents v v').
  assert (Hh : forall r m, hits r m [n] = []).
  { intros r m. destruct n as [nm k|s|]; [exfalso; exact (Hn nm k eq_refl)| |];
      destruct r as [|p r]; cbn [hits kids_of flat_map app concat]; auto using hits_nil. }
  induction fs as [|ps m om t fs IH]; cbn [fields_run]; [tauto|]. rewrite IH. unfold field_run.
  destruct (strip_prefix parents ps); [|tauto]. rewrite Hh, hits_nil. tauto.
Qed.

Theorem walks_iff e fs : paths_ok (sigs fs) = true -> forall kids parents v v',
  walks e fs parents kids v = Some v' <-> fields_run e fs parents kids v v'.
Proof.
  intros Hok.
  assert (Hall : forall kids, Forall (fun n => forall parents v v',
      d_walk (decode e n) fs parents v = Some v' <-> fields_run e fs parents [n] v v') kids ->
    forall parents v v', walks e fs parents kids v = Some v' <-> fields_run e fs parents kids v v').
  { intros kids H. induction H as [|n kids Hn _ IH]; intros parents v v'.
    - rewrite fields_run_nil. cbn. split; [intros [= ->] | intros ->]; reflexivity.
    - rewrite walks_cons. change (n :: kids) with ([n] ++ kids). rewrite fields_run_app.
      destruct (d_walk (decode e n) fs parents v) as [w|] eqn:E; cbn [bind].
      + rewrite IH. apply Hn in E. split; [eauto|]. intros (w' & Hw & Hr). apply Hn in E, Hw. rewrite E in Hw. congruence.
      + split; [discriminate|]. intros (w' & Hw & _). apply Hn in Hw. congruence. }
  intros kids. apply Hall. apply Forall_forall. intros n _. clear kids.
  induction n as [nm kids IH|s|] using node_ind'; intros parents v v'.
  - rewrite walk_elem. pose proof (match_spec e fs parents nm kids v Hok) as H.
    destruct (match_fields fs parents nm (d_value (decode e (Elem nm kids))) v) as [| |o].
    + rewrite (proj1 (H v')). split; [intros [= ->] | intros ->]; reflexivity.
    + rewrite (H v'). apply Hall. exact IH.
    + rewrite (H v'). tauto.
  - rewrite fields_run_other by discriminate. cbn. split; [intros [= ->] | intros ->]; reflexivity.
  - rewrite fields_run_other by discriminate. cbn. split; [intros [= ->] | intros ->]; reflexivity.
Qed.

(** ** Single fields *)

Lemma struct_iff e fs kids v : paths_ok (sigs fs) = true ->
  (walks e fs [] kids (zero_flds fs) = Some v <-> fields_run e fs [] kids (zero_flds fs) v).
Proof. intros H. apply walks_iff. exact H. Qed.

Lemma and_cong (A B C D : Prop) : (A <-> B) -> (C <-> D) -> (A /\ C <-> B /\ D).
Proof. tauto. Qed.
Lemma and_last (A B : Prop) : (A <-> B) -> (A /\ True <-> B).
Proof. tauto. Qed.

Lemma into_cons e t n k ks v : into e t n (k :: ks) v = bind (unmarshal e t (Elem n k) v) (into e t n ks).
Proof. reflexivity. Qed.

Lemma last_cons {A} (x : A) l d : last (x :: l) d = last l x.
Proof.
  revert x d. induction l as [|y l IH]; intros x d; [reflexivity|].
  change (last (x :: y :: l) d) with (last (y :: l) d). rewrite !IH. reflexivity.
Qed.

Lemma into_leaf e l n ks : forall v v', into e (TLeaf l) n ks v = Some v' <->
  exists vs, Forall2 (fun k x => leaf_unmarshal e l (text_of k) = Some x) ks vs /\ v' = last vs v.
Proof.
  induction ks as [|k ks IH]; intros v v'.
  - split; [intros [= <-]; exists []; auto|]. intros (vs & H & ->). inversion H. reflexivity.
  - rewrite into_cons, unmarshal_leaf. destruct (leaf_unmarshal e l (text_of k)) as [x|] eqn:E; cbn [bind].
    + rewrite IH. split.
      * intros (vs & H & ->). exists (x :: vs). rewrite last_cons. auto.
      * intros (vs & H & ->). inversion H as [|? y ? vs' Hy Hvs]; subst. rewrite E in Hy. injection Hy as <-.
        exists vs'. rewrite last_cons. auto.
    + split; [discriminate|]. intros (vs & H & _). inversion H; subst. congruence.
Qed.

Lemma into_ptr_leaf e l n ks : forall v v', into e (TPtr (TLeaf l)) n ks v = Some v' <->
  exists vs, Forall2 (fun k x => leaf_unmarshal e l (text_of k) = Some x) ks vs /\ v' = last (map Some vs) v.
Proof.
  induction ks as [|k ks IH]; intros v v'.
  - split; [intros [= <-]; exists []; auto|]. intros (vs & H & ->). inversion H. reflexivity.
  - rewrite into_cons, unmarshal_ptr, unmarshal_leaf. destruct (leaf_unmarshal e l (text_of k)) as [x|] eqn:E; cbn [bind option_map].
    + rewrite IH. split.
      * intros (vs & H & ->). exists (x :: vs). cbn [map]. rewrite last_cons. auto.
      * intros (vs & H & ->). inversion H as [|? y ? vs' Hy Hvs]; subst. rewrite E in Hy. injection Hy as <-.
        exists vs'. cbn [map]. rewrite last_cons. auto.
    + split; [discriminate|]. intros (vs & H & _). inversion H; subst. congruence.
Qed.

Lemma into_slice e t n ks : forall v v', into e (TSlice t) n ks v = Some v' <->
  exists vs, Forall2 (fun k x => unmarshal e t (Elem n k) (zero t) = Some x) ks vs /\ v' = v ++ vs.
Proof.
  induction ks as [|k ks IH]; intros v v'.
  - split; [intros [= <-]; exists []; rewrite app_nil_r; auto|]. intros (vs & H & ->). inversion H. rewrite app_nil_r. reflexivity.
  - rewrite into_cons, unmarshal_slice. destruct (unmarshal e t (Elem n k) (zero t)) as [x|] eqn:E; cbn [bind option_map].
    + rewrite IH. split.
      * intros (vs & H & ->). exists (x :: vs). rewrite <- app_assoc. auto.
      * intros (vs & H & ->). inversion H as [|? y ? vs' Hy Hvs]; subst. rewrite E in Hy. injection Hy as <-.
        exists vs'. rewrite <- app_assoc. auto.
    + split; [discriminate|]. intros (vs & H & _). inversion H; subst. congruence.
Qed.

Definition fits (x n : str) : bool := null x || str_eqb x n.

Lemma struct_fits e x fs n k v : fits x n = true -> unmarshal e (TStruct x fs) (Elem n k) v = walks e fs [] k v.
Proof.
  intros H. rewrite unmarshal_struct. unfold fits in H. destruct (null x), (str_eqb x n); try discriminate H; reflexivity.
Qed.

Lemma into_struct e x fs n ks : fits x n = true -> forall v,
  into e (TStruct x fs) n ks v = walks e fs [] (concat ks) v.
Proof.
  intros Hx. induction ks as [|k ks IH]; intros v; [reflexivity|].
  rewrite into_cons, struct_fits by exact Hx. cbn [concat]. unfold walks. rewrite map_app, run_all_app.
  fold (walks e fs [] k v). destruct (walks e fs [] k v) as [w|]; [apply IH | reflexivity].
Qed.

Lemma into_custom e x fs n ks : forall v, into e (TCustom x fs) n ks v = steps e (cust_step e fs) (concat ks) v.
Proof.
  induction ks as [|k ks IH]; intros v; [reflexivity|].
  rewrite into_cons, unmarshal_custom. cbn [concat]. rewrite steps_app.
  destruct (steps e (cust_step e fs) k v) as [w|]; [apply IH | reflexivity].
Qed.

Lemma into_altlist e x a n ks : forall v, into e (TAltList x a) n ks v = steps e (alt_step e a) (concat ks) v.
Proof.
  induction ks as [|k ks IH]; intros v; [reflexivity|].
  rewrite into_cons, unmarshal_altlist. cbn [concat]. rewrite steps_app.
  destruct (steps e (alt_step e a) k v) as [w|]; [apply IH | reflexivity].
Qed.

Lemma into_msgsets e fs n ks : forall v, into e (TMsgSets fs) n ks v = steps e (msgset_step e fs) (concat ks) v.
Proof.
  induction ks as [|k ks IH]; intros v; [reflexivity|].
  rewrite into_cons, unmarshal_msgsets. cbn [concat]. rewrite steps_app.
  destruct (steps e (msgset_step e fs) k v) as [w|]; [apply IH | reflexivity].
Qed.

Lemma into_ptr e t n ks : forall o, into e (TPtr t) n ks o =
  match ks with
  | [] => Some o
  | _ => option_map Some (into e t n ks (match o with Some v => v | None => zero t end))
  end.
Proof.
  induction ks as [|k ks IH]; intros o; [reflexivity|].
  rewrite !into_cons, unmarshal_ptr.
  destruct (unmarshal e t (Elem n k) (match o with Some v => v | None => zero t end)) as [w|]; [|reflexivity].
  cbn [option_map bind]. rewrite IH. destruct ks; reflexivity.
Qed.

(** In the words of the specification. *)
Lemma read_text e nm kids v : into e (TLeaf LString) (bs nm) (kids_of (bs nm) kids) (zero (TLeaf LString)) = Some v <-> is_text nm kids v.
Proof. apply into_leaf. Qed.
Lemma read_uid e nm kids v : into e (TLeaf LUID) (bs nm) (kids_of (bs nm) kids) (zero (TLeaf LUID)) = Some v <-> is_text nm kids v.
Proof. apply into_leaf. Qed.
Lemma read_number e nm kids v : into e (TLeaf LInt) (bs nm) (kids_of (bs nm) kids) (zero (TLeaf LInt)) = Some v <-> is_number nm kids v.
Proof. apply into_leaf. Qed.
Lemma read_amount e nm kids v : into e (TLeaf LAmount) (bs nm) (kids_of (bs nm) kids) (zero (TLeaf LAmount)) = Some v <-> is_amount nm kids v.
Proof. apply into_leaf. Qed.
Lemma read_flag e nm kids v : into e (TLeaf LBool) (bs nm) (kids_of (bs nm) kids) (zero (TLeaf LBool)) = Some v <-> is_flag nm kids v.
Proof. apply into_leaf. Qed.
Lemma read_date e nm kids v : into e (TLeaf LDate) (bs nm) (kids_of (bs nm) kids) (zero (TLeaf LDate)) = Some v <-> is_date e nm kids v.
Proof. apply into_leaf. Qed.
Lemma read_currency e nm kids v : into e (TLeaf LCurr) (bs nm) (kids_of (bs nm) kids) (zero (TLeaf LCurr)) = Some v <-> is_currency e nm kids v.
Proof. apply into_leaf. Qed.
Lemma read_choice e t nm kids v : into e (TLeaf (LEnum t)) (bs nm) (kids_of (bs nm) kids) (zero (TLeaf (LEnum t))) = Some v <-> is_choice t nm kids v.
Proof. apply into_leaf. Qed.
Lemma read_opt_date e nm kids v : into e (TPtr (TLeaf LDate)) (bs nm) (kids_of (bs nm) kids) (zero (TPtr (TLeaf LDate))) = Some v <-> is_opt_date e nm kids v.
Proof. apply into_ptr_leaf. Qed.
Lemma read_opt_amount e nm kids v : into e (TPtr (TLeaf LAmount)) (bs nm) (kids_of (bs nm) kids) (zero (TPtr (TLeaf LAmount))) = Some v <-> is_opt_amount nm kids v.
Proof. apply into_ptr_leaf. Qed.

(** How a struct is read: [R] is the specification of the fields [fs]. *)
Definition reads_struct {A} (e : env) (fs : flds) (to : A -> interp_flds fs) (R : list node -> A -> Prop) : Prop :=
  forall kids r, walks e fs [] kids (zero_flds fs) = Some (to r) <-> R kids r.

Lemma read_part {A} e x fs (to : A -> interp_flds fs) R nm kids v : reads_struct e fs to R -> fits x (bs nm) = true ->
  into e (TStruct x fs) (bs nm) (kids_of (bs nm) kids) (zero (TStruct x fs)) = Some (to v) <-> is_part R nm kids v.
Proof. intros H Hx. rewrite into_struct by exact Hx. apply H. Qed.

Lemma read_opt {A} e t (to : A -> interp t) (R : list node -> A -> Prop) nm kids o :
  (forall v, into e t (bs nm) (kids_of (bs nm) kids) (zero t) = Some (to v) <-> R (inner nm kids) v) ->
  into e (TPtr t) (bs nm) (kids_of (bs nm) kids) (zero (TPtr t)) = Some (option_map to o) <-> is_opt_part R nm kids o.
Proof.
  intros H. cbn [zero]. rewrite into_ptr. unfold is_opt_part. change (called nm kids) with (kids_of (bs nm) kids).
  destruct o as [v|]; cbn [option_map].
  - rewrite <- H. destruct (kids_of (bs nm) kids) as [|k ks].
    + split; [discriminate | intros [E _]; exfalso; apply E; reflexivity].
    + destruct (into e t (bs nm) (k :: ks) (zero t)) as [w|]; cbn [option_map].
      * split; [intros [= ->]; split; [discriminate | reflexivity] | intros [_ [= ->]]; reflexivity].
      * split; [discriminate | intros [_ E]; discriminate E].
  - destruct (kids_of (bs nm) kids) as [|k ks]; [tauto|].
    destruct (into e t (bs nm) (k :: ks) (zero t)) as [w|]; split; discriminate.
Qed.

Lemma read_opt_part {A} e x fs (to : A -> interp_flds fs) R nm kids o : reads_struct e fs to R -> fits x (bs nm) = true ->
  into e (TPtr (TStruct x fs)) (bs nm) (kids_of (bs nm) kids) (zero (TPtr (TStruct x fs))) = Some (option_map to o) <-> is_opt_part R nm kids o.
Proof. intros H Hx. apply (read_opt e (TStruct x fs) to R). intros v. apply read_part; assumption. Qed.

Lemma Forall2_map_iff {A B C} (P : A -> C -> Prop) (Q : A -> B -> Prop) (f : B -> C) : (forall a b, P a (f b) <-> Q a b) ->
  forall l m, Forall2 P l (map f m) <-> Forall2 Q l m.
Proof.
  intros H l. induction l as [|a l IH]; intros [|b m]; cbn [map]; split; intros F; inversion F; subst; constructor;
    try (apply H; assumption); apply IH; assumption.
Qed.

Lemma read_parts {A} e x fs (to : A -> interp_flds fs) R nm kids l : reads_struct e fs to R -> fits x (bs nm) = true ->
  into e (TSlice (TStruct x fs)) (bs nm) (kids_of (bs nm) kids) (zero (TSlice (TStruct x fs))) = Some (map to l) <-> are_parts R nm kids l.
Proof.
  intros H Hx. rewrite into_slice. cbn [zero app]. unfold are_parts.
  rewrite <- (Forall2_map_iff (fun k x0 => unmarshal e (TStruct x fs) (Elem (bs nm) k) (zero_flds fs) = Some x0) R to).
  - split; [intros (vs & F & <-); exact F | intros F; eexists; split; [exact F | reflexivity]].
  - intros k v. rewrite struct_fits by exact Hx. apply H.
Qed.

(** A struct whose XMLName does not fit its tag can not be read. *)
Lemma read_none e x fs nm kids {A} (to : A -> interp_flds fs) l : fits x (bs nm) = false ->
  into e (TSlice (TStruct x fs)) (bs nm) (kids_of (bs nm) kids) (zero (TSlice (TStruct x fs))) = Some (map to l) <->
  called nm kids = [] /\ l = [].
Proof.
  intros Hx. rewrite into_slice. cbn [zero app]. change (called nm kids) with (kids_of (bs nm) kids). split.
  - intros (vs & F & E). destruct F as [|k v ks vs Hk _].
    + destruct l; [auto | discriminate E].
    + exfalso. rewrite unmarshal_struct in Hk. unfold fits in Hx. apply Bool.orb_false_iff in Hx as [H1 H2].
      rewrite H1, H2 in Hk. discriminate Hk.
  - intros [-> ->]. exists []. split; [constructor | reflexivity].
Qed.

Lemma read_texts e nm kids l :
  into e (TSlice (TLeaf LString)) (bs nm) (kids_of (bs nm) kids) (zero (TSlice (TLeaf LString))) = Some l <->
  values (fun s => Some (trim_space s)) nm kids l.
Proof. rewrite into_slice. split; [intros (vs & F & ->); exact F | intros F; exists l; split; [exact F | reflexivity]]. Qed.

(** ** Alternatives *)

Definition reads_alt {A} (e : env) (a : alts) (to : A -> interp_alts a) (R : str -> list node -> A -> Prop) : Prop :=
  forall nm k r, match_alts a nm (d_value (decode e (Elem nm k))) = Some (to r) <-> R nm k r.

Lemma alt_here rd wr t a nm k x :
  match_alts (ACons rd wr t a) nm k = Some (inl x) <-> nm = rd /\ k t (zero t) = Some x.
Proof.
  cbn [match_alts]. destruct (str_eqb rd nm) eqn:E.
  - apply str_eqb_eq in E as ->. destruct (k t (zero t)) as [y|]; cbn [option_map].
    + split; [intros [= ->]; auto | intros [_ [= ->]]; reflexivity].
    + split; [discriminate | intros [_ H]; discriminate H].
  - destruct (match_alts a nm k); cbn [option_map]; (split; [discriminate | intros [-> _]; rewrite str_eqb_refl in E; discriminate]).
Qed.

Lemma alt_there rd wr t a nm k y :
  match_alts (ACons rd wr t a) nm k = Some (inr y) <-> nm <> rd /\ match_alts a nm k = Some y.
Proof.
  cbn [match_alts]. destruct (str_eqb rd nm) eqn:E.
  - apply str_eqb_eq in E as ->. destruct (k t (zero t)); cbn [option_map]; (split; [discriminate | intros [H _]; exfalso; apply H; reflexivity]).
  - assert (nm <> rd) by (intros ->; rewrite str_eqb_refl in E; discriminate).
    destruct (match_alts a nm k) as [z|]; cbn [option_map].
    + split; [intros [= ->]; auto | intros [_ [= ->]]; reflexivity].
    + split; [discriminate | intros [_ H1]; discriminate H1].
Qed.

Lemma alt_struct {A} e x fs (to : A -> interp_flds fs) R nm rd k v : reads_struct e fs to R -> fits x rd = true ->
  (nm = rd /\ d_value (decode e (Elem nm k)) (TStruct x fs) (zero (TStruct x fs)) = Some (to v)) <-> nm = rd /\ R k v.
Proof.
  intros H Hx. split; intros [-> E]; (split; [reflexivity|]).
  - change (unmarshal e (TStruct x fs) (Elem rd k) (zero_flds fs) = Some (to v)) in E.
    rewrite struct_fits in E by exact Hx. apply H. exact E.
  - change (unmarshal e (TStruct x fs) (Elem rd k) (zero_flds fs) = Some (to v)).
    rewrite struct_fits by exact Hx. apply H. exact E.
Qed.

Lemma steps_solid {A} e (f : node -> str -> A -> option A) kids : forall v,
  steps e f kids v = steps e f (solid kids) v.
Proof.
  induction kids as [|n kids IH]; intros v; [reflexivity|].
  unfold solid. cbn [filter]. destruct n as [nm k|s|].
  - cbn [steps map run_all]. unfold steps in *. cbn [map run_all token_step]. destruct (f (Elem nm k) nm v); [apply IH | reflexivity].
  - destruct (blank s) eqn:E; cbn [negb].
    + unfold steps in *. cbn [map run_all token_step]. rewrite E. cbn [bind]. apply IH.
    + unfold steps in *. cbn [map run_all token_step]. rewrite E. reflexivity.
  - unfold steps. cbn [map run_all token_step]. reflexivity.
Qed.

(** A loop that appends one value for each element. *)
Lemma steps_append {A} e (g : node -> option A) kids : forall v v',
  steps e (fun n _ l => option_map (fun x => l ++ [x]) (g n)) (solid kids) v = Some v' <->
  exists vs, Forall2 (fun n x => (exists nm k, n = Elem nm k) /\ g n = Some x) (solid kids) vs /\ v' = v ++ vs.
Proof.
  assert (Hs : Forall (fun n => match n with Text s => blank s = false | _ => True end) (solid kids)).
  { apply Forall_forall. intros n Hn. apply filter_In in Hn as [_ Hn]. destruct n; auto. apply Bool.negb_true_iff. exact Hn. }
  revert Hs. generalize (solid kids) as l. intros l Hs. induction Hs as [|n l Hn _ IH]; intros v v'.
  - split; [intros [= <-]; exists []; rewrite app_nil_r; auto|]. intros (vs & F & ->). inversion F. rewrite app_nil_r. reflexivity.
  - unfold steps in *. cbn [map run_all]. destruct n as [nm k|s|]; cbn [token_step].
    + destruct (g (Elem nm k)) as [x|] eqn:E; cbn [option_map bind].
      * rewrite IH. split.
        -- intros (vs & F & ->). exists (x :: vs). rewrite <- app_assoc. split; [constructor; eauto | reflexivity].
        -- intros (vs & F & ->). inversion F as [|? y ? vs' [_ Hy] Hvs]; subst. rewrite E in Hy. injection Hy as <-.
           exists vs'. rewrite <- app_assoc. auto.
      * split; [discriminate|]. intros (vs & F & _). inversion F as [|? y ? vs' [_ Hy] Hvs]; subst. congruence.
    + rewrite Hn. cbn [bind]. split; [discriminate|]. intros (vs & F & _). inversion F as [|? y ? vs' [(a & b & Hy) _] Hvs]; subst. discriminate Hy.
    + cbn [bind]. split; [discriminate|]. intros (vs & F & _). inversion F as [|? y ? vs' [(a & b & Hy) _] Hvs]; subst. discriminate Hy.
Qed.

Definition name_of (n : node) : str := match n with Elem nm _ => nm | _ => [] end.

Lemma read_listed {A} e x a (to : A -> interp_alts a) R nm kids l : reads_alt e a to R ->
  into e (TAltList x a) (bs nm) (kids_of (bs nm) kids) (zero (TAltList x a)) = Some (map to l) <-> are_listed R (inner nm kids) l.
Proof.
  intros H. rewrite into_altlist. cbn [zero]. change (concat (kids_of (bs nm) kids)) with (inner nm kids).
  rewrite steps_solid.
  assert (E : forall ks v, steps e (alt_step e a) ks v =
    steps e (fun n _ l => option_map (fun x => l ++ [x]) (match_alts a (name_of n) (d_value (decode e n)))) ks v).
  { intros ks. induction ks as [|n ks IH]; intros v; [reflexivity|]. unfold steps in *. cbn [map run_all].
    destruct n as [m k|s|]; cbn [token_step]; [|destruct (blank s); cbn [bind]; auto|reflexivity].
    unfold alt_step at 1. cbn [name_of]. destruct (option_map _ _); cbn [bind]; [apply IH | reflexivity]. }
  rewrite E.
  transitivity (exists vs, Forall2 (fun n x => (exists nm k, n = Elem nm k) /\ match_alts a (name_of n) (d_value (decode e n)) = Some x)
    (solid (inner nm kids)) vs /\ map to l = [] ++ vs); [exact (steps_append e (fun n => match_alts a (name_of n) (d_value (decode e n))) (inner nm kids) [] (map to l))|].
  cbn [app]. unfold are_listed.
  rewrite <- (Forall2_map_iff (fun n x => (exists nm k, n = Elem nm k) /\ match_alts a (name_of n) (d_value (decode e n)) = Some x)
    (fun n v => exists nm0 k, n = Elem nm0 k /\ R nm0 k v) to).
  - split; [intros (vs & F & <-); exact F | intros F; eexists; split; [exact F | reflexivity]].
  - intros n v. split.
    + intros [(m & k & ->) Hm]. exists m, k. split; [reflexivity|]. apply H. exact Hm.
    + intros (m & k & -> & Hm). split; [eauto|]. apply H. exact Hm.
Qed.
