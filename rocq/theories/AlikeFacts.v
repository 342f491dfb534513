(** Which differences between documents the decoder does not see. *)
From Coq Require Import QArith Lia Bool.
From Coq Require Import List.
From Verif Require Import GoStr SpecStr GoStrFacts GoTime Types Enums Records Common Messages Codec CodecFacts CodecSim SpecCodec
  Schema Document SpecDocument SetsFacts FilingFacts Xml SpecXml SimFacts Leaves SpecWire SpecDecode.
Close Scope Q_scope.

(** ** The part of a struct an element can change *)

Fixpoint agree (sel : list str -> bool) (fs : flds) : interp_flds fs -> interp_flds fs -> Prop :=
  match fs return interp_flds fs -> interp_flds fs -> Prop with
  | FNil => fun _ _ => True
  | FCons ps n _ t fs' => fun v w =>
      (sel (ps ++ [n]) = true -> fst v = fst w) /\ agree sel fs' (snd v) (snd w)
  end.

Lemma agree_refl sel fs v : agree sel fs v v.
Proof. induction fs as [|ps n om t fs IH]; cbn; auto. Qed.

Lemma agree_sym sel fs v w : agree sel fs v w -> agree sel fs w v.
Proof. induction fs as [|ps n om t fs IH]; cbn; [auto|]. intros [H1 H2]. split; [intros H; symmetry; auto | auto]. Qed.

Lemma agree_trans sel fs u v w : agree sel fs u v -> agree sel fs v w -> agree sel fs u w.
Proof.
  induction fs as [|ps n om t fs IH]; cbn; [auto|]. intros [H1 H2] [H3 H4].
  split; [intros H; rewrite H1 by exact H; auto | eauto].
Qed.

Lemma agree_weaken (sel sel' : list str -> bool) fs v w : (forall s, sel' s = true -> sel s = true) ->
  agree sel fs v w -> agree sel' fs v w.
Proof. intros Hs. induction fs as [|ps n om t fs IH]; cbn; [auto|]. intros [H1 H2]. auto. Qed.

Lemma agree_join (a b c : list str -> bool) fs v w : (forall s, c s = true -> a s = true \/ b s = true) ->
  agree a fs v w -> agree b fs v w -> agree c fs v w.
Proof.
  intros Hs. induction fs as [|ps n om t fs IH]; cbn; [auto|]. intros [H1 H2] [H3 H4].
  split; [|auto]. intros H. destruct (Hs _ H); auto.
Qed.

Lemma agree_all fs v w : agree (fun _ => true) fs v w -> v = w.
Proof.
  induction fs as [|ps n om t fs IH]; cbn.
  - destruct v, w. reflexivity.
  - destruct v as [a b], w as [c d]. cbn. intros [H1 H2]. rewrite H1, (IH _ _ H2); reflexivity.
Qed.

Definition off (q : list str) (s : list str) : bool := negb (prefixb q s).

Definition same_result (q : list str) (fs : flds) (a b : option (interp_flds fs)) : Prop :=
  match a, b with
  | Some v, Some w => agree (prefixb q) fs v w
  | None, None => True
  | _, _ => False
  end.

Definition local (q : list str) (fs : flds) (F : interp_flds fs -> option (interp_flds fs)) : Prop :=
  (forall v w, agree (prefixb q) fs v w -> same_result q fs (F v) (F w)) /\
  (forall v v', F v = Some v' -> agree (off q) fs v v').

Lemma local_id q fs : local q fs (fun v => Some v).
Proof. split; [intros v w H; exact H | intros v v' [= <-]; apply agree_refl]. Qed.

Lemma local_more q r fs F : local (q ++ r) fs F -> local q fs F.
Proof.
  intros [H1 H2].
  assert (Hp : forall s, prefixb (q ++ r) s = true -> prefixb q s = true).
  { intros s H. apply prefixb_spec in H as [x ->]. apply prefixb_spec. exists (r ++ x). symmetry. apply app_assoc. }
  split.
  - intros v w H. pose proof (H1 v w (agree_weaken _ _ _ _ _ Hp H)) as H'. unfold same_result in *.
    destruct (F v) as [v'|] eqn:Ev, (F w) as [w'|] eqn:Ew; try exact H'.
    apply (agree_join (prefixb (q ++ r)) (fun s => prefixb q s && off (q ++ r) s)).
    + intros s Hs. destruct (prefixb (q ++ r) s) eqn:E; [left; reflexivity | right; unfold off; rewrite E, Hs; reflexivity].
    + exact H'.
    + apply agree_trans with w; [apply agree_trans with v|].
      * apply agree_sym, (agree_weaken (off (q ++ r))); [|exact (H2 _ _ Ev)]. intros s Hs. apply andb_true_iff in Hs. tauto.
      * apply (agree_weaken (prefixb q)); [|exact H]. intros s Hs. apply andb_true_iff in Hs. tauto.
      * apply (agree_weaken (off (q ++ r))); [|exact (H2 _ _ Ew)]. intros s Hs. apply andb_true_iff in Hs. tauto.
  - intros v v' H. apply (agree_weaken (off (q ++ r))); [|exact (H2 _ _ H)]. unfold off. intros s Hs.
    apply negb_true_iff in Hs. apply negb_true_iff. destruct (prefixb (q ++ r) s) eqn:E; [|reflexivity].
    apply Hp in E. congruence.
Qed.

Lemma local_run q fs Fs : Forall (local q fs) Fs -> local q fs (run_all Fs).
Proof.
  induction 1 as [|F Fs [H1 H2] _ [I1 I2]]; [apply local_id|]. cbn [run_all]. split.
  - intros v w H. specialize (H1 v w H). unfold same_result in H1 at 1.
    destruct (F v) as [v'|], (F w) as [w'|]; try contradiction; cbn [bind]; [apply I1, H1 | exact I].
  - intros v v' H. destruct (F v) as [u|] eqn:E; [|discriminate]. cbn [bind] in H.
    apply agree_trans with u; [exact (H2 _ _ E) | exact (I2 _ _ H)].
Qed.

Lemma local_commute q1 q2 fs F G : (forall s, prefixb q1 s = true -> prefixb q2 s = true -> False) ->
  local q1 fs F -> local q2 fs G -> forall v, bind (F v) G = bind (G v) F.
Proof.
  intros Hd [F1 F2] [G1 G2] v.
  assert (D1 : forall s, prefixb q2 s = true -> off q1 s = true).
  { intros s H. unfold off. destruct (prefixb q1 s) eqn:E; [destruct (Hd s E H) | reflexivity]. }
  assert (D2 : forall s, prefixb q1 s = true -> off q2 s = true).
  { intros s H. unfold off. destruct (prefixb q2 s) eqn:E; [destruct (Hd s H E) | reflexivity]. }
  assert (HG : forall v1, F v = Some v1 -> same_result q2 fs (G v) (G v1)).
  { intros v1 E. apply G1. exact (agree_weaken _ _ _ _ _ D1 (F2 _ _ E)). }
  assert (HF : forall v2, G v = Some v2 -> same_result q1 fs (F v) (F v2)).
  { intros v2 E. apply F1. exact (agree_weaken _ _ _ _ _ D2 (G2 _ _ E)). }
  destruct (F v) as [v1|] eqn:Ef, (G v) as [v2|] eqn:Eg; cbn [bind].
  - specialize (HG _ eq_refl). specialize (HF _ eq_refl). cbn [same_result] in HG, HF.
    destruct (G v1) as [w1|] eqn:E1; [|contradiction]. destruct (F v2) as [w2|] eqn:E2; [|contradiction].
    f_equal. apply agree_all.
    apply (agree_join (prefixb q1) (off q1)); [intros s _; unfold off; destruct (prefixb q1 s); auto| |].
    + (* the part of F *)
      apply agree_trans with v1; [|exact HF].
      apply agree_sym, (agree_weaken (off q2)); [exact D2 | exact (G2 _ _ E1)].
    + apply agree_trans with v2; [|exact (F2 _ _ E2)].
      apply (agree_join (prefixb q2) (fun s => off q1 s && off q2 s)).
      * intros s H. unfold off in *. destruct (prefixb q2 s); [auto|]. right. rewrite H. reflexivity.
      * apply agree_sym, HG.
      * apply agree_trans with v1; [|apply agree_trans with v].
        -- apply agree_sym, (agree_weaken (off q2)); [|exact (G2 _ _ E1)]. intros s H. apply andb_true_iff in H. tauto.
        -- apply agree_sym, (agree_weaken (off q1)); [|exact (F2 _ _ Ef)]. intros s H. apply andb_true_iff in H. tauto.
        -- apply (agree_weaken (off q2)); [|exact (G2 _ _ Eg)]. intros s H. apply andb_true_iff in H. tauto.
  - specialize (HG _ eq_refl). cbn [same_result] in HG. destruct (G v1); [contradiction | reflexivity].
  - specialize (HF _ eq_refl). cbn [same_result] in HF. destruct (F v2); [contradiction | reflexivity].
  - reflexivity.
Qed.

Lemma match_fields_shape fs ps nm (k : decoder) :
  (forall v, match_fields fs ps nm k v = NoMatch) \/ (forall v, match_fields fs ps nm k v = Prefix) \/
  exists F, (forall v, match_fields fs ps nm k v = Hit (F v)) /\ local (ps ++ [nm]) fs F.
Proof.
  induction fs as [|qs n om t fs IH]; [left; reflexivity|]. cbn [match_fields].
  assert (Hnext :
    (forall v : interp t * interp_flds fs, found_map (pair (fst v)) (match_fields fs ps nm k (snd v)) = NoMatch) \/
    (forall v : interp t * interp_flds fs, found_map (pair (fst v)) (match_fields fs ps nm k (snd v)) = Prefix) \/
    exists F, (forall v : interp t * interp_flds fs, found_map (pair (fst v)) (match_fields fs ps nm k (snd v)) = Hit (F v)) /\
              local (ps ++ [nm]) (FCons qs n om t fs) F).
  { destruct IH as [H|[H|(F & H & [L1 L2])]].
    - left. intros v. rewrite H. reflexivity.
    - right; left. intros v. rewrite H. reflexivity.
    - right; right. exists (fun v : interp t * interp_flds fs => option_map (pair (fst v)) (F (snd v))).
      split; [intros v; rewrite H; reflexivity|]. split.
      + intros [a b] [c d] [H1 H2]. cbn [fst snd] in *. specialize (L1 b d H2). unfold same_result in *.
        destruct (F b) as [b'|], (F d) as [d'|]; try contradiction; cbn [option_map]; [|exact I].
        split; cbn [fst snd]; assumption.
      + intros [a b] v' E. cbn [fst snd] in E. destruct (F b) as [b'|] eqn:Eb; [|discriminate]. cbn [option_map] in E.
        injection E as <-. split; cbn [fst snd]; [reflexivity | exact (L2 _ _ Eb)]. }
  destruct (strip_prefix ps qs) as [[|p q]|] eqn:Es.
  - destruct (str_eqb n nm) eqn:En; [|exact Hnext]. apply str_eqb_eq in En as ->.
    apply strip_prefix_spec in Es. rewrite app_nil_r in Es. subst qs.
    right; right. exists (fun v : interp t * interp_flds fs => option_map (fun x => (x, snd v)) (k t (fst v))).
    split; [reflexivity|]. split.
    + intros [a b] [c d] [H1 H2]. cbn [fst snd] in *.
      rewrite <- H1 by (apply prefixb_spec; exists []; symmetry; apply app_nil_r). unfold same_result.
      destruct (k t a) as [x|]; cbn [option_map]; [|exact I]. split; cbn [fst snd]; [reflexivity | exact H2].
    + intros [a b] v' E. cbn [fst snd] in E. destruct (k t a) as [x|]; [|discriminate]. cbn [option_map] in E.
      injection E as <-. split; cbn [fst snd]; [|apply agree_refl]. unfold off.
      assert (E : prefixb (ps ++ [nm]) (ps ++ [nm]) = true) by (apply prefixb_spec; exists []; symmetry; apply app_nil_r).
      rewrite E. discriminate.
  - destruct (str_eqb p nm); [right; left; reflexivity | exact Hnext].
  - exact Hnext.
Qed.

Lemma walk_local e n : forall nm kids, n = Elem nm kids -> forall fs ps, local (ps ++ [nm]) fs (d_walk (decode e n) fs ps).
Proof.
  induction n as [nm kids IH|s|] using node_ind'; intros nm' kids' [= <- <-] fs ps.
  assert (Hext : forall F G, (forall v, F v = G v) -> local (ps ++ [nm]) fs F -> local (ps ++ [nm]) fs G).
  { intros F G E [H1 H2]. split; [intros v w H; rewrite <- !E; auto | intros v v' H; rewrite <- E in H; auto]. }
  destruct (match_fields_shape fs ps nm (d_value (decode e (Elem nm kids)))) as [H|[H|(F & H & L)]].
  - apply (Hext (fun v => Some v)); [|apply local_id]. intros v. rewrite walk_elem, H. reflexivity.
  - apply (Hext (walks e fs (ps ++ [nm]) kids)); [intros v; rewrite walk_elem, H; reflexivity|].
    unfold walks. apply local_run. apply Forall_map. revert IH. apply Forall_impl. intros k Hk.
    destruct k as [km kk|s|]; [|apply local_id|apply local_id].
    apply (local_more _ [km]). apply (Hk km kk eq_refl).
  - apply (Hext F); [|exact L]. intros v. rewrite walk_elem, H. reflexivity.
Qed.

Lemma walk_swap e a ka b kb fs ps v : a <> b ->
  bind (d_walk (decode e (Elem a ka)) fs ps v) (d_walk (decode e (Elem b kb)) fs ps) =
  bind (d_walk (decode e (Elem b kb)) fs ps v) (d_walk (decode e (Elem a ka)) fs ps).
Proof.
  intros Hab. apply (local_commute (ps ++ [a]) (ps ++ [b])).
  - intros s H1 H2. apply prefixb_spec in H1 as [x ->]. apply prefixb_spec in H2 as [y H2].
    rewrite <- !app_assoc in H2. apply app_inv_head in H2. injection H2 as H2 _. contradiction.
  - apply (walk_local e _ a ka eq_refl).
  - apply (walk_local e _ b kb eq_refl).
Qed.

(** ** Where the hand-written decoders are *)

Definition memb (x : str) (l : list str) : bool := existsb (str_eqb x) l.

Lemma memb_spec x l : memb x l = true <-> In x l.
Proof.
  unfold memb. rewrite existsb_exists. split.
  - intros (y & H & E). apply str_eqb_eq in E as ->. exact H.
  - intros H. exists x. split; [exact H | apply str_eqb_eq; reflexivity].
Qed.

Fixpoint good_ty (S : list str) (t : ty) (nm : str) : bool :=
  match t with
  | TLeaf _ => true
  | TStruct _ fs => good_flds S fs
  | TPtr t | TSlice t => good_ty S t nm
  | TCustom _ fs => memb nm S && good_flds S fs
  | TAlts a => good_alts S a
  | TAltList _ a => memb nm S && good_alts S a
  | TMsgSets _ => str_eqb nm (bs "MSGSETLIST")
  end
with good_flds (S : list str) (fs : flds) : bool :=
  match fs with
  | FNil => true
  | FCons _ nm _ t fs' => good_ty S t nm && good_flds S fs'
  end
with good_alts (S : list str) (a : alts) : bool :=
  match a with
  | ANil => true
  | ACons rd _ t a' => good_ty S t rd && good_alts S a'
  end.

Definition known_tags : list str := flat_map tag_names response_types.

Definition ok_ty (t : ty) (nm : str) : Prop := good_ty strict_elements t nm = true /\ incl (tag_names t) known_tags.
Definition ok_flds (fs : flds) : Prop := good_flds strict_elements fs = true /\ incl (tags_of fs) known_tags.
Definition ok_alts (a : alts) : Prop := good_alts strict_elements a = true /\ incl (alt_tags a) known_tags.

Lemma ok_cons ps nm om t fs : ok_flds (FCons ps nm om t fs) -> ok_ty t nm /\ ok_flds fs.
Proof.
  intros [H1 H2]. cbn [good_flds tags_of] in *. apply andb_true_iff in H1 as [H1 H3].
  split; split; try assumption; intros x Hx; apply H2; apply in_or_app; right; right; apply in_or_app; auto.
Qed.

Lemma ok_acons rd wr t a : ok_alts (ACons rd wr t a) -> ok_ty t rd /\ ok_alts a.
Proof.
  intros [H1 H2]. cbn [good_alts alt_tags] in *. apply andb_true_iff in H1 as [H1 H3].
  split; split; try assumption; intros x Hx; apply H2; right; apply in_or_app; auto.
Qed.

Lemma ok_fields_ext fs ps nm (k k' : decoder) v : ok_flds fs ->
  (forall t v, ok_ty t nm -> k t v = k' t v) -> match_fields fs ps nm k v = match_fields fs ps nm k' v.
Proof.
  intros Hok H. induction fs as [|qs n om t fs IH]; [reflexivity|].
  apply ok_cons in Hok as [Ht Hok]. cbn [match_fields]. rewrite IH by exact Hok.
  destruct (strip_prefix ps qs) as [[|p q]|]; [|reflexivity|reflexivity].
  destruct (str_eqb n nm) eqn:E; [|reflexivity]. apply str_eqb_eq in E as ->. rewrite H by exact Ht. reflexivity.
Qed.

Lemma ok_alts_ty a nm nm' : ok_ty (TAlts a) nm -> ok_ty (TAlts a) nm'.
Proof. exact (fun H => H). Qed.

Lemma ok_custom_ext fs nm (k k' : decoder) v : ok_flds fs ->
  (forall t v, ok_ty t nm -> k t v = k' t v) -> match_custom fs nm k v = match_custom fs nm k' v.
Proof.
  intros Hok H. induction fs as [|qs n om t fs IH]; [reflexivity|].
  apply ok_cons in Hok as [Ht Hok]. cbn [match_custom]. rewrite IH by exact Hok.
  destruct (match t with TAlts a => has_alt a nm | _ => str_eqb n nm end) eqn:E; [|reflexivity].
  rewrite H; [reflexivity|].
  destruct t; try (apply str_eqb_eq in E as ->; exact Ht). exact Ht.
Qed.

Lemma ok_alts_ext a nm (k k' : decoder) : ok_alts a ->
  (forall t v, ok_ty t nm -> k t v = k' t v) -> match_alts a nm k = match_alts a nm k'.
Proof.
  intros Hok H. induction a as [|rd wr t a IH]; [reflexivity|].
  apply ok_acons in Hok as [Ht Hok]. cbn [match_alts]. rewrite IH by exact Hok.
  destruct (str_eqb rd nm) eqn:E; [|reflexivity]. apply str_eqb_eq in E as ->. rewrite H by exact Ht. reflexivity.
Qed.

Lemma foreign_nomatch fs ps u (k : decoder) v : ok_flds fs -> foreign u -> match_fields fs ps u k v = NoMatch.
Proof.
  intros Hok Hu. induction fs as [|qs n om t fs IH]; [reflexivity|].
  pose proof Hok as [_ Hin]. apply ok_cons in Hok as [_ Hok]. cbn [match_fields]. rewrite IH by exact Hok.
  assert (Hn : ~ In u (qs ++ [n])).
  { intros H. apply Hu, Hin. cbn [tags_of]. apply in_or_app. apply in_app_or in H as [H|[H|[]]]; [left | right; left]; exact H. }
  cbn [found_map].
  destruct (strip_prefix ps qs) as [[|p q]|] eqn:Es; [| |reflexivity].
  - destruct (str_eqb n u) eqn:E; [|reflexivity]. apply str_eqb_eq in E as ->. destruct Hn. apply in_or_app. right; left; reflexivity.
  - destruct (str_eqb p u) eqn:E; [|reflexivity]. apply str_eqb_eq in E as ->. destruct Hn.
    apply strip_prefix_spec in Es as ->. apply in_or_app. left. apply in_or_app. right; left; reflexivity.
Qed.

(** ** Alike elements are decoded alike *)

Definition node_name (n : node) : str := match n with Elem nm _ => nm | _ => [] end.

Definition same_head (n n' : node) : Prop :=
  match n, n' with
  | Elem a _, Elem b _ => a = b
  | Text s, Text s' => s = s'
  | Misc, Misc => True
  | _, _ => False
  end.

Definition same_reading (e : env) (n n' : node) : Prop :=
  same_head n n' /\
  (forall t v, ok_ty t (node_name n) -> d_value (decode e n) t v = d_value (decode e n') t v) /\
  (forall fs ps v, ok_flds fs -> d_walk (decode e n) fs ps v = d_walk (decode e n') fs ps v).

Lemma elem_reading e nm k k' :
  text_of k = text_of k' ->
  (forall fs ps v, ok_flds fs -> walks e fs ps k v = walks e fs ps k' v) ->
  nm <> bs "MSGSETLIST" ->
  (In nm strict_elements -> (forall fs v, ok_flds fs -> steps e (cust_step e fs) k v = steps e (cust_step e fs) k' v) /\
                            (forall a v, ok_alts a -> steps e (alt_step e a) k v = steps e (alt_step e a) k' v)) ->
  same_reading e (Elem nm k) (Elem nm k').
Proof.
  intros Ht Hw Hm Hs.
  assert (Hv : forall t v, ok_ty t nm -> d_value (decode e (Elem nm k)) t v = d_value (decode e (Elem nm k')) t v).
  { apply (ty_mind (fun t => forall v, ok_ty t nm -> d_value (decode e (Elem nm k)) t v = d_value (decode e (Elem nm k')) t v)
             (fun _ => True)
             (fun a => ok_alts a -> match_alts a nm (d_value (decode e (Elem nm k))) = match_alts a nm (d_value (decode e (Elem nm k')))));
      try (intros; exact I).
    - intros l v _. change (leaf_unmarshal e l (text_of k) = leaf_unmarshal e l (text_of k')). rewrite Ht. reflexivity.
    - intros x fs _ v Hok. fold (unmarshal e (TStruct x fs) (Elem nm k) v).
      fold (unmarshal e (TStruct x fs) (Elem nm k') v). rewrite !unmarshal_struct, Hw; [reflexivity | exact Hok].
    - intros t IHt v Hok. fold (unmarshal e (TPtr t) (Elem nm k) v).
      fold (unmarshal e (TPtr t) (Elem nm k') v). rewrite !unmarshal_ptr. unfold unmarshal. rewrite IHt; [reflexivity | exact Hok].
    - intros t IHt v Hok. fold (unmarshal e (TSlice t) (Elem nm k) v).
      fold (unmarshal e (TSlice t) (Elem nm k') v). rewrite !unmarshal_slice. unfold unmarshal. rewrite IHt; [reflexivity | exact Hok].
    - intros x fs _ v [H1 H2]. cbn [good_ty tag_names] in *. apply andb_true_iff in H1 as [H0 H1].
      fold (unmarshal e (TCustom x fs) (Elem nm k) v).
      fold (unmarshal e (TCustom x fs) (Elem nm k') v). rewrite !unmarshal_custom.
      apply (proj1 (Hs (proj1 (memb_spec _ _) H0))). split; assumption.
    - intros a IHa v Hok. fold (unmarshal e (TAlts a) (Elem nm k) v).
      fold (unmarshal e (TAlts a) (Elem nm k') v). rewrite !unmarshal_alts, IHa; [reflexivity | exact Hok].
    - intros x a _ v [H1 H2]. cbn [good_ty tag_names] in *. apply andb_true_iff in H1 as [H0 H1].
      fold (unmarshal e (TAltList x a) (Elem nm k) v).
      fold (unmarshal e (TAltList x a) (Elem nm k') v). rewrite !unmarshal_altlist.
      apply (proj2 (Hs (proj1 (memb_spec _ _) H0))). split; assumption.
    - intros fs _ v [H1 _]. cbn [good_ty] in H1. apply str_eqb_eq in H1. contradiction.
    - reflexivity.
    - intros rd wr t IHt a IHa Hok. apply ok_acons in Hok as [Hok1 Hok2]. cbn [match_alts]. rewrite IHa by exact Hok2.
      destruct (str_eqb rd nm) eqn:E; [|reflexivity]. apply str_eqb_eq in E as ->. rewrite IHt by exact Hok1. reflexivity. }
  split; [reflexivity|]. split; [exact Hv|].
  intros fs ps v Hok. rewrite !walk_elem, (ok_fields_ext _ _ _ _ _ _ Hok Hv), Hw by exact Hok. reflexivity.
Qed.

Lemma same_reading_refl e n : same_reading e n n.
Proof. split; [destruct n; cbn; auto | auto]. Qed.

Lemma same_head_name n n' : same_head n n' -> node_name n = node_name n'.
Proof. destruct n, n'; cbn; auto; contradiction. Qed.

Lemma same_reading_sym e n n' : same_reading e n n' -> same_reading e n' n.
Proof.
  intros (H1 & H2 & H3). split; [destruct n, n'; cbn in *; auto|].
  split; intros; symmetry; [apply H2; rewrite (same_head_name _ _ H1); assumption | auto].
Qed.

Lemma same_reading_trans e a b c : same_reading e a b -> same_reading e b c -> same_reading e a c.
Proof.
  intros (H1 & H2 & H3) (K1 & K2 & K3). split.
  - clear - H1 K1. destruct a, b, c; cbn [same_head] in *; try contradiction; try congruence; exact I.
  - split; intros; [rewrite H2 by assumption; apply K2; rewrite <- (same_head_name _ _ H1); assumption | rewrite H3; auto].
Qed.

Lemma text_of_app' a b : text_of (a ++ b) = text_of a ++ text_of b.
Proof.
  induction a as [|[nm k|s|] a IH]; cbn [app text_of]; rewrite ?IH; try reflexivity. apply app_assoc.
Qed.

Lemma walks_app e fs ps a b v : walks e fs ps (a ++ b) v = bind (walks e fs ps a v) (walks e fs ps b).
Proof. unfold walks. rewrite map_app, run_all_app. reflexivity. Qed.

Lemma below_reading e nm k k' : nm <> bs "MSGSETLIST" -> Forall2 (same_reading e) k k' ->
  same_reading e (Elem nm k) (Elem nm k').
Proof.
  intros Hm H. apply elem_reading; [| |exact Hm|intros _; split].
  - induction H as [|a b k k' (Hh & _) _ IH]; [reflexivity|].
    destruct a, b; cbn [same_head] in Hh; try contradiction; cbn [text_of]; rewrite IH; subst; reflexivity.
  - intros fs ps v Hok. unfold walks. refine (Forall2_map_ext _ _ _ _ _ _ H v).
    intros a b (_ & _ & Hw) w. apply Hw, Hok.
  - intros fs v Hok. unfold steps. refine (Forall2_map_ext _ _ _ _ _ _ H v).
    intros a b (Hh & Hv & _) w. destruct a, b; cbn [same_head] in Hh; try contradiction; subst; [|reflexivity|reflexivity].
    cbn [token_step]. unfold cust_step. apply ok_custom_ext; [exact Hok | exact Hv].
  - intros al v Hok. unfold steps. refine (Forall2_map_ext _ _ _ _ _ _ H v).
    intros a b (Hh & Hv & _) w. destruct a, b; cbn [same_head] in Hh; try contradiction; subst; [|reflexivity|reflexivity].
    cbn [token_step]. unfold alt_step. cbn [node_name] in Hv. rewrite (ok_alts_ext al _ _ _ Hok Hv). reflexivity.
Qed.

Lemma loose_reading e nm k k' : ~ In nm strict_elements -> text_of k = text_of k' ->
  (forall fs ps v, ok_flds fs -> walks e fs ps k v = walks e fs ps k' v) -> same_reading e (Elem nm k) (Elem nm k').
Proof.
  intros Hn Ht Hw. apply elem_reading; [exact Ht | exact Hw | | intros H; contradiction].
  intros ->. apply Hn. apply memb_spec. vm_compute. reflexivity.
Qed.

Lemma alike_reading e : forall n n', alike n n' -> same_reading e n n'.
Proof.
  fix IH 3. intros n n' [m|m m' H|m1 m2 m3 H1 H2|nm kids kids' Hm HF|nm before a ka b kb after Hn Hab|nm before u ku after Hn Hu|nm before after Hn].
  - apply same_reading_refl.
  - apply same_reading_sym, IH, H.
  - exact (same_reading_trans e _ _ _ (IH _ _ H1) (IH _ _ H2)).
  - apply below_reading; [exact Hm|].
    revert kids kids' HF. fix IHF 3. intros l l' [|x y l1 l1' Hxy Hl]; constructor; [exact (IH _ _ Hxy) | exact (IHF _ _ Hl)].
  - apply loose_reading; [exact Hn | rewrite !text_of_app'; reflexivity|].
    intros fs ps v _. rewrite !walks_app. destruct (walks e fs ps before v) as [w|]; [|reflexivity]. cbn [bind].
    unfold walks. cbn [map run_all].
    pose proof (walk_swap e a ka b kb fs ps w Hab) as E.
    destruct (d_walk (decode e (Elem a ka)) fs ps w) as [x|]; destruct (d_walk (decode e (Elem b kb)) fs ps w) as [y|];
      cbn [bind] in *; try reflexivity; (rewrite <- E; reflexivity) || (rewrite E; reflexivity).
  - apply loose_reading; [exact Hn | rewrite !text_of_app'; reflexivity|].
    intros fs ps v Hok. rewrite !walks_app. destruct (walks e fs ps before v) as [w|]; [|reflexivity]. cbn [bind].
    unfold walks. cbn [map run_all]. rewrite walk_elem, foreign_nomatch by assumption. reflexivity.
  - apply loose_reading; [exact Hn | rewrite !text_of_app'; reflexivity|].
    intros fs ps v Hok. rewrite !walks_app. reflexivity.
Qed.

(** ** Documents *)

Definition kids_of (n : node) : list node := match n with Elem _ k => k | _ => [] end.

Definition signon_part (e : env) (sk : list node) : option (interp SignonResponse_ty) :=
  match first_elem sk with
  | Some (x, rest) => if negb (null (solid rest)) then None else unmarshal e SignonResponse_ty x (zero SignonResponse_ty)
  | None => None
  end.

Definition same_document (e : env) (n n' : node) : Prop :=
  same_reading e n n' /\
  (In (node_name n) response_set_names -> forall set,
     decode_messages e set (solid (kids_of n)) = decode_messages e set (solid (kids_of n'))) /\
  (node_name n = bs "SIGNONMSGSRSV1" -> signon_part e (kids_of n) = signon_part e (kids_of n')) /\
  (forall v, decode_ofx e v n = decode_ofx e v n').

Lemma ok_response t nm : In t response_types -> good_ty strict_elements t nm = true -> ok_ty t nm.
Proof. intros H E. split; [exact E|]. intros x Hx. unfold known_tags. apply in_flat_map. exists t. auto. Qed.

Lemma reading_message e set n n' : same_reading e n n' -> decode_message e set n = decode_message e set n'.
Proof.
  intros (Hh & Hv & _). destruct n as [nm k|s|], n' as [nm' k'|s'|]; cbn [same_head] in Hh; try contradiction; [subst|reflexivity|reflexivity].
  cbn [node_name] in Hv. unfold decode_message. cbv zeta. unfold unmarshal.
  destruct set; try reflexivity;
    repeat match goal with |- (if str_eqb ?a ?b then _ else _) = _ =>
      let E := fresh in destruct (str_eqb a b) eqn:E;
      [apply str_eqb_eq in E as ->; rewrite Hv; [reflexivity | apply ok_response; [unfold response_types; cbn [In]; tauto | vm_compute; reflexivity]] |] end;
    reflexivity.
Qed.

Lemma reading_messages e set k k' : Forall2 (same_reading e) k k' -> decode_messages e set k = decode_messages e set k'.
Proof.
  induction 1 as [|a b k k' H _ IH]; [reflexivity|]. cbn [decode_messages]. rewrite (reading_message e set _ _ H), IH. reflexivity.
Qed.

Lemma reading_solid e (R : node -> node -> Prop) k k' : (forall a b, R a b -> same_reading e a b) ->
  Forall2 R k k' -> Forall2 R (solid k) (solid k').
Proof.
  intros HR. induction 1 as [|a b k k' H _ IH]; [constructor|]. unfold solid. cbn [filter]. fold (solid k). fold (solid k').
  pose proof (HR _ _ H) as [Hh _].
  destruct a, b; cbn [same_head] in Hh; try contradiction; subst; try (constructor; assumption).
  match goal with |- context [if ?c then _ else _] => destruct c end; [constructor; assumption | exact IH].
Qed.

Lemma reading_first e (R : node -> node -> Prop) k k' : (forall a b, R a b -> same_reading e a b) -> Forall2 R k k' ->
  match first_elem k, first_elem k' with
  | None, None => True
  | Some (x, r), Some (x', r') => R x x' /\ Forall2 R r r'
  | _, _ => False
  end.
Proof.
  intros HR. induction 1 as [|n n' k k' H H' IH]; [exact I|].
  pose proof (HR _ _ H) as [Hh _].
  destruct n, n'; cbn [same_head] in Hh; try contradiction; cbn [first_elem]; auto.
Qed.

Lemma reading_signon e k k' : Forall2 (same_reading e) k k' -> signon_part e k = signon_part e k'.
Proof.
  intros H. unfold signon_part. pose proof (reading_first e _ _ _ (fun a b Hab => Hab) H) as Hf.
  destruct (first_elem k) as [[x r]|], (first_elem k') as [[x' r']|]; try contradiction; [|reflexivity].
  destruct Hf as [(Hx & Hv & _) Hr].
  assert (En : null (solid r) = null (solid r')) by (destruct (reading_solid e _ _ _ (fun a b Hab => Hab) Hr); reflexivity).
  rewrite En. destruct (negb (null (solid r'))); [reflexivity|]. unfold unmarshal.
  apply Hv. apply ok_response; [unfold response_types; cbn [In]; tauto | vm_compute; reflexivity].
Qed.

Lemma response_set_name nm set : response_set nm = Some set -> In nm response_set_names.
Proof.
  intros H. apply names_body_sets. unfold response_set in H. apply find_some in H as [H E]. apply str_eqb_eq in E.
  exists set. split; [exact H | symmetry; exact E].
Qed.

Lemma document_sets e k k' : Forall2 (same_document e) k k' -> forall s, decode_sets e k s = decode_sets e k' s.
Proof.
  induction 1 as [|n n' k k' H H' IH]; intros s; [reflexivity|].
  destruct H as ((Hh & _) & Hm & _). destruct n, n'; cbn [same_head] in Hh; try contradiction; subst; [|reflexivity|reflexivity].
  cbn [decode_sets node_name kids_of] in *.
  destruct (response_set name0) as [set|] eqn:E; [|reflexivity]. cbn [bind].
  rewrite (Hm (response_set_name _ _ E) set). destruct (decode_messages e set (solid kids0)); [|reflexivity].
  cbn [bind]. apply IH.
Qed.

Lemma document_ofx e nm k k' v : Forall2 (same_document e) k k' -> decode_ofx e v (Elem nm k) = decode_ofx e v (Elem nm k').
Proof.
  intros H. unfold decode_ofx. destruct (negb (str_eqb nm (bs "OFX"))); [reflexivity|].
  pose proof (reading_solid e _ _ _ (fun a b (Hab : same_document e a b) => proj1 Hab) H) as Hs.
  destruct Hs as [|x x' r r' Hx Hr]; [reflexivity|].
  destruct Hx as ((Hh & _) & _ & Hsig & _).
  destruct x as [sn sk|s|], x' as [sn' sk'|s'|]; cbn [same_head] in Hh; try contradiction; [subst|reflexivity|reflexivity].
  destruct (negb (str_eqb sn' (msgtype_string (MSignon, Rs)))) eqn:En; [reflexivity|].
  apply negb_false_iff, str_eqb_eq in En. specialize (Hsig En). cbn [kids_of] in Hsig. unfold signon_part in Hsig.
  rewrite (document_sets e _ _ Hr no_messages).
  destruct (first_elem sk) as [[y ry]|], (first_elem sk') as [[y' ry']|]; try reflexivity.
  - destruct (negb (null (solid ry))), (negb (null (solid ry'))); try reflexivity.
    + rewrite <- Hsig. reflexivity.
    + rewrite Hsig. reflexivity.
    + rewrite Hsig. reflexivity.
  - destruct (negb (null (solid ry))); [reflexivity|]. rewrite Hsig. reflexivity.
  - destruct (negb (null (solid ry'))); [reflexivity|]. rewrite <- Hsig. reflexivity.
Qed.

Lemma loose_document e nm k k' : ~ In nm strict_elements -> same_reading e (Elem nm k) (Elem nm k') ->
  same_document e (Elem nm k) (Elem nm k').
Proof.
  intros Hn H. split; [exact H|]. cbn [node_name]. split; [|split].
  - intros Hin. destruct Hn. apply in_or_app. right. exact Hin.
  - intros ->. destruct Hn. apply memb_spec. vm_compute. reflexivity.
  - intros v. cbn [decode_ofx]. destruct (str_eqb nm (bs "OFX")) eqn:E; [|reflexivity].
    apply str_eqb_eq in E as ->. destruct Hn. apply memb_spec. vm_compute. reflexivity.
Qed.

Theorem alike_document e : forall n n', alike n n' -> same_document e n n'.
Proof.
  fix IH 3. intros n n' H. pose proof (alike_reading e _ _ H) as Hr. revert Hr.
  destruct H as [m|m m' H|m1 m2 m3 H1 H2|nm kids kids' Hm HF|nm before a ka b kb after Hn Hab|nm before u ku after Hn Hu|nm before after Hn]; intros Hr.
  - split; auto.
  - destruct (IH _ _ H) as (K0 & K1 & K2 & K3). pose proof (same_head_name _ _ (proj1 K0)) as En.
    split; [exact Hr|]. rewrite <- En. split; [|split]; intros; symmetry; auto.
  - destruct (IH _ _ H1) as (K0 & K1 & K2 & K3). destruct (IH _ _ H2) as (_ & L1 & L2 & L3).
    pose proof (same_head_name _ _ (proj1 K0)) as En. rewrite <- En in *.
    split; [exact Hr|]. split; [|split]; intros; [rewrite K1 by assumption | rewrite K2 by assumption | rewrite K3]; auto.
  - assert (HD : Forall2 (same_document e) kids kids').
    { revert kids kids' HF Hr. fix IHF 3. intros l l' HF _. destruct HF as [|x y l1 l1' Hxy Hl]; constructor; [exact (IH _ _ Hxy)|].
      apply IHF; [exact Hl|]. apply alike_reading. apply alike_below; assumption. }
    assert (HR : Forall2 (same_reading e) kids kids').
    { clear - HD. induction HD as [|a b l l' [H _] _ IH]; constructor; auto. }
    split; [exact Hr|]. cbn [node_name kids_of]. split; [|split].
    + intros _ set. apply reading_messages, (reading_solid e _ _ _ (fun a b Hab => Hab) HR).
    + intros _. apply reading_signon, HR.
    + intros v. apply document_ofx, HD.
  - apply loose_document; assumption.
  - apply loose_document; assumption.
  - apply loose_document; assumption.
Qed.
