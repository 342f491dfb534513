(** Facts about the encoder and the decoder of Codec.v: what is encoded decodes
    to the same value. *)
From Coq Require Import QArith Lia Bool.
From Coq Require Import List.
Close Scope Q_scope.
From Verif Require Import GoStr GoStrFacts GoNum GoRat GoTime Types Enums Codec.

Scheme ty_mind := Induction for ty Sort Prop
  with flds_mind := Induction for flds Sort Prop
  with alts_mind := Induction for alts Sort Prop.
Combined Scheme schema_ind from ty_mind, flds_mind, alts_mind.

(** ** Values that survive *)

Definition leaf_rt (e : env) (l : leafty) (v : leafval l) : Prop :=
  match leaf_marshal l v with
  | Some (Some s) => leaf_unmarshal e l s = Some v
  | Some None => v = leaf_zero l
  | None => False
  end.

Fixpoint rt_ok (e : env) (t : ty) (nm : str) : interp t -> Prop :=
  match t return interp t -> Prop with
  | TLeaf l => fun v => leaf_rt e l v
  | TStruct x fs => fun v => (x = [] \/ x = nm) /\ rt_flds e fs v
  | TPtr t => fun v => match v with None => True | Some v => rt_ok e t nm v end
  | TSlice t => fun v => Forall (rt_ok e t nm) v
  | TCustom x fs => fun v => x = nm /\ rt_flds e fs v
  | TAlts a => fun v => Forall (rt_alt e a) v
  | TAltList x a => fun v => x = nm /\ Forall (rt_alt e a) v
  | TMsgSets fs => fun v => nm = bs "MSGSETLIST" /\ Forall (fun m => rt_flds e fs (snd m)) v
  end
with rt_flds (e : env) (fs : flds) : interp_flds fs -> Prop :=
  match fs return interp_flds fs -> Prop with
  | FNil => fun _ => True
  | FCons _ nm _ t fs' => fun v => rt_ok e t nm (fst v) /\ rt_flds e fs' (snd v)
  end
with rt_alt (e : env) (a : alts) : interp_alts a -> Prop :=
  match a return interp_alts a -> Prop with
  | ANil => fun _ => True
  | ACons rd _ t a' => fun v =>
      match v with
      | inl x => rt_ok e t rd x
      | inr y => rt_alt e a' y
      end
  end.

(** ** Well-formed schemas *)

Fixpoint sigs (fs : flds) : list (list str) :=
  match fs with
  | FNil => []
  | FCons ps n _ _ fs' => (ps ++ [n]) :: sigs fs'
  end.

Definition prefixb (p l : list str) : bool :=
  match strip_prefix p l with Some _ => true | None => false end.

Fixpoint paths_ok (l : list (list str)) : bool :=
  match l with
  | [] => true
  | p :: l' => forallb (fun q => negb (prefixb p q) && negb (prefixb q p)) l' && paths_ok l'
  end.

(** Does encoding a value of this type always write exactly one element? *)
Definition single (t : ty) (omit : bool) : bool :=
  match t with
  | TLeaf (LEnum _) => false
  | TLeaf LAmount | TLeaf LDate | TLeaf LCurr => true
  | TLeaf _ => negb omit
  | TStruct _ _ | TCustom _ _ => true
  | TAltList _ _ | TMsgSets _ => negb omit
  | _ => false
  end.

(** The names under which the fields of a [TCustom] are found. *)
Fixpoint alt_names (a : alts) : list str :=
  match a with
  | ANil => []
  | ACons rd _ _ a' => rd :: alt_names a'
  end.

Definition cust_names (nm : str) (t : ty) : list str :=
  match t with TAlts a => alt_names a | _ => [nm] end.

Fixpoint all_cust_names (fs : flds) : list str :=
  match fs with
  | FNil => []
  | FCons _ nm _ t fs' => cust_names nm t ++ all_cust_names fs'
  end.

Fixpoint no_dup (l : list str) : bool :=
  match l with
  | [] => true
  | x :: l' => negb (existsb (str_eqb x) l') && no_dup l'
  end.

Fixpoint wf_ty (t : ty) (omit : bool) : bool :=
  match t with
  | TLeaf _ => true
  | TStruct _ fs => paths_ok (sigs fs) && wf_flds fs
  | TPtr t => single t omit && wf_ty t omit
  | TSlice t => single t omit && wf_ty t omit
  | TCustom _ fs => no_dup (all_cust_names fs) && wf_cust fs
  | TAlts _ => false
  | TAltList _ a => no_dup (alt_names a) && wf_alts a
  | TMsgSets fs => paths_ok (sigs (FCons [] (bs "Name") false (TLeaf LString) fs)) && wf_flds fs
  end
with wf_flds (fs : flds) : bool :=
  match fs with
  | FNil => true
  | FCons _ _ om t fs' => wf_ty t om && wf_flds fs'
  end
with wf_cust (fs : flds) : bool :=
  match fs with
  | FNil => true
  | FCons _ _ _ t fs' =>
      (match t with TAlts a => wf_alts a | _ => wf_ty t false end) && wf_cust fs'
  end
with wf_alts (a : alts) : bool :=
  match a with
  | ANil => true
  | ACons rd wr t a' =>
      str_eqb rd wr && single t false && wf_ty t false && wf_alts a'
  end.

(** ** Paths *)

Lemma strip_prefix_spec p l r : strip_prefix p l = Some r <-> l = p ++ r.
Proof.
  revert l; induction p as [|x p IH]; intros l; simpl.
  - split; intros H; [injection H; auto | subst; auto].
  - destruct l as [|y l]; [split; discriminate|].
    destruct (str_eqb x y) eqn:E.
    + apply str_eqb_eq in E; subst y. rewrite IH. split; intros H; [subst; auto | injection H; auto].
    + split; [discriminate|]. intros H; injection H as -> ->.
      rewrite str_eqb_refl in E; discriminate.
Qed.

Lemma strip_prefix_app p r : strip_prefix p (p ++ r) = Some r.
Proof. apply strip_prefix_spec; auto. Qed.

Lemma strip_prefix_self p : strip_prefix p p = Some [].
Proof. apply strip_prefix_spec. rewrite app_nil_r; auto. Qed.

Lemma prefixb_spec p l : prefixb p l = true <-> exists r, l = p ++ r.
Proof.
  unfold prefixb. destruct (strip_prefix p l) as [r|] eqn:E.
  - apply strip_prefix_spec in E. split; eauto.
  - split; [discriminate|]. intros [r H]. apply strip_prefix_spec in H. congruence.
Qed.

Definition relevant (fs : flds) (ps : list str) (nm : str) : Prop :=
  exists q, In q (sigs fs) /\ prefixb (ps ++ [nm]) q = true.

Definition embeds (FS fs : flds) (put : interp_flds fs -> interp_flds FS) : Prop :=
  forall ps nm k v, relevant fs ps nm ->
    match_fields FS ps nm k (put v) = found_map put (match_fields fs ps nm k v).

Lemma found_map_map {A B C} (f : A -> B) (g : B -> C) m :
  found_map g (found_map f m) = found_map (fun x => g (f x)) m.
Proof. destruct m as [| |[|]]; reflexivity. Qed.

Lemma embeds_refl FS : embeds FS FS (fun v => v).
Proof.
  intros ps nm k v _. destruct (match_fields FS ps nm k v) as [| |[|]]; reflexivity.
Qed.

Lemma match_prefix fs ps nm k v :
  relevant fs ps nm -> (forall q, In q (sigs fs) -> q <> ps ++ [nm]) ->
  match_fields fs ps nm k v = Prefix.
Proof.
  induction fs as [|qs n om t fs' IH]; intros (q & Hq & Hp) Hno.
  - destruct Hq.
  - simpl in Hq. cbn [match_fields].
    assert (Hnext : In q (sigs fs') ->
      found_map (pair (fst v)) (match_fields fs' ps nm k (snd v)) = Prefix).
    { intros Hin. rewrite IH; [reflexivity | exists q; auto |].
      intros q' Hq'. apply Hno. right; auto. }
    apply prefixb_spec in Hp as [r Hr].
    destruct (strip_prefix ps qs) as [[|p w]|] eqn:E.
    + apply strip_prefix_spec in E. rewrite app_nil_r in E. subst qs.
      destruct (str_eqb n nm) eqn:En.
      * apply str_eqb_eq in En; subst n. exfalso. apply (Hno (ps ++ [nm])); [left; auto | auto].
      * apply Hnext. destruct Hq as [Hq|]; auto. exfalso. rewrite Hr in Hq.
        rewrite <- app_assoc in Hq. apply app_inv_head in Hq.
        injection Hq as H1 H2. subst n. rewrite str_eqb_refl in En; discriminate.
    + apply strip_prefix_spec in E. subst qs.
      destruct (str_eqb p nm) eqn:En; [reflexivity|].
      apply Hnext. destruct Hq as [Hq|]; auto. exfalso. rewrite Hr in Hq.
      rewrite <- !app_assoc in Hq. apply app_inv_head in Hq. simpl in Hq.
      injection Hq as H1 H2. subst p. rewrite str_eqb_refl in En; discriminate.
    + apply Hnext. destruct Hq as [Hq|]; auto. exfalso. rewrite Hr in Hq.
      clear Hnext IH Hno.
      assert (Hs : forall (r : list str) nm ps qs n, strip_prefix ps qs = None ->
                qs ++ [n] = (ps ++ [nm]) ++ r -> False).
      { clear. intros r nm ps qs n E Hq.
        destruct (rev r) as [|z w] eqn:Er.
        - assert (r = []) as -> by (rewrite <- (rev_involutive r), Er; auto).
          rewrite app_nil_r in Hq. apply app_inj_tail in Hq as [-> _].
          rewrite <- (app_nil_r ps) in E at 2. rewrite strip_prefix_app in E. discriminate.
        - assert (r = rev w ++ [z]) as -> by (rewrite <- (rev_involutive r), Er; auto).
          rewrite app_assoc in Hq. apply app_inj_tail in Hq as [-> _].
          rewrite <- app_assoc in E. rewrite strip_prefix_app in E. discriminate. }
      eapply Hs; eauto.
Qed.

Lemma paths_ok_cons q l :
  paths_ok (q :: l) = true ->
  (forall p, In p l -> prefixb q p = false /\ prefixb p q = false) /\ paths_ok l = true.
Proof.
  cbn [paths_ok]. intros H. apply andb_true_iff in H as [H1 H2]. split; auto.
  intros p Hp. rewrite forallb_forall in H1. specialize (H1 p Hp).
  apply andb_true_iff in H1 as [A B]. apply negb_true_iff in A, B. auto.
Qed.

Lemma embeds_step FS qs n om t fs' put x :
  embeds FS (FCons qs n om t fs') put ->
  paths_ok (sigs (FCons qs n om t fs')) = true ->
  embeds FS fs' (fun v => put (x, v)).
Proof.
  intros He Hok ps nm k v Hrel. apply paths_ok_cons in Hok as [Hno _].
  assert (Hrel' : relevant (FCons qs n om t fs') ps nm).
  { destruct Hrel as (q & Hq & Hp). exists q. split; [right; auto | auto]. }
  rewrite (He ps nm k (x, v) Hrel'). cbn [match_fields fst snd].
  destruct (strip_prefix ps qs) as [[|p w]|] eqn:E; [| |apply found_map_map].
  - destruct (str_eqb n nm) eqn:En; [|apply found_map_map].
    apply str_eqb_eq in En; subst n. apply strip_prefix_spec in E. rewrite app_nil_r in E. subst qs.
    destruct Hrel as (q & Hq & Hp). destruct (Hno q Hq) as [H1 _]. congruence.
  - destruct (str_eqb p nm) eqn:En; [|apply found_map_map].
    apply str_eqb_eq in En; subst p. apply strip_prefix_spec in E. subst qs.
    rewrite (match_prefix fs' ps nm k v Hrel); [reflexivity|].
    intros q Hq ->. destruct (Hno _ Hq) as [_ H2].
    assert (prefixb (ps ++ [nm]) ((ps ++ nm :: w) ++ [n]) = true).
    { apply prefixb_spec. exists (w ++ [n]). rewrite <- !app_assoc. reflexivity. }
    congruence.
Qed.

(** ** Running the elements of the levels *)

Definition walks (e : env) (FS : flds) (s : list str) (f : list node) :=
  run_all (map (fun n => d_walk (decode e n) FS s) f).

Fixpoint levels (e : env) (FS : flds) (s : list str) (L : list (list node)) (v : interp_flds FS)
  : option (interp_flds FS) :=
  match L with
  | [] => Some v
  | f :: r => v' <- walks e FS s f v ;; levels e FS (removelast s) r v'
  end.

Lemma run_all_app {A} (f g : list (A -> option A)) v :
  run_all (f ++ g) v = bind (run_all f v) (run_all g).
Proof.
  revert v; induction f as [|a f IH]; intros v; simpl; auto.
  destruct (a v); simpl; auto.
Qed.

Lemma walks_cons e FS s n f v :
  walks e FS s (n :: f) v = bind (d_walk (decode e n) FS s v) (walks e FS s f).
Proof. reflexivity. Qed.

Lemma decode_map_walk e FS s kids v :
  run_all (map (fun d => d_walk (snd d) FS s) (map (fun k => (k, decode e k)) kids)) v
  = walks e FS s kids v.
Proof. unfold walks. rewrite map_map. reflexivity. Qed.

Lemma walk_elem e nm kids FS s v :
  d_walk (decode e (Elem nm kids)) FS s v =
  match match_fields FS s nm (d_value (decode e (Elem nm kids))) v with
  | NoMatch => Some v
  | Hit r => r
  | Prefix => walks e FS (s ++ [nm]) kids v
  end.
Proof.
  rewrite <- decode_map_walk. reflexivity.
Qed.

Lemma build_closes k c : build (repeat Close k ++ c) = repeat [] k ++ build c.
Proof. induction k; simpl; congruence. Qed.

Lemma build_wholes ns c f r :
  build c = f :: r -> build (map Whole ns ++ c) = (ns ++ f) :: r.
Proof.
  intros H. induction ns as [|n ns IH]; simpl; auto. rewrite IH; reflexivity.
Qed.

Lemma build_opens_length l c :
  length l < length (build c) ->
  length (build (map Open l ++ c)) = length (build c) - length l.
Proof.
  induction l as [|x l IH]; simpl; intros H; [lia|].
  rewrite Nat.sub_succ_r, <- IH by lia.
  assert (H2 : 1 < length (build (map Open l ++ c))) by (rewrite IH; lia).
  destruct (build (map Open l ++ c)) as [|f [|g r]]; simpl in *; lia.
Qed.

Lemma removelast_firstn (s : list str) k :
  k < length s -> removelast (firstn (length s - k) s) = firstn (length s - S k) s.
Proof.
  intros H. rewrite removelast_firstn_len, firstn_firstn, firstn_length.
  f_equal. lia.
Qed.

Lemma levels_closes e FS k s c v :
  k <= length s ->
  levels e FS s (build (repeat Close k ++ c)) v = levels e FS (firstn (length s - k) s) (build c) v.
Proof.
  rewrite build_closes. revert s. induction k as [|k IH]; intros s H; simpl.
  - rewrite Nat.sub_0_r, firstn_all. reflexivity.
  - rewrite IH.
    + f_equal. rewrite removelast_firstn_len, firstn_firstn, firstn_length. f_equal. lia.
    + rewrite removelast_firstn_len, firstn_length. lia.
Qed.

Lemma levels_wholes e FS s ns c v :
  build c <> [] ->
  levels e FS s (build (map Whole ns ++ c)) v = bind (walks e FS s ns v) (levels e FS s (build c)).
Proof.
  intros H. destruct (build c) as [|f r] eqn:E; [congruence|].
  rewrite (build_wholes _ _ _ _ E). simpl.
  unfold walks at 1. rewrite map_app, run_all_app. fold (walks e FS s ns).
  destruct (walks e FS s ns v); reflexivity.
Qed.

Lemma levels_opens e FS ps v c :
  (forall s n l k, ps = s ++ n :: l -> match_fields FS s n k v = Prefix) ->
  forall l s, ps = s ++ l -> length l < length (build c) ->
  levels e FS s (build (map Open l ++ c)) v = levels e FS ps (build c) v.
Proof.
  intros Hp. induction l as [|n l IH]; intros s Hs Hl; simpl.
  - rewrite app_nil_r in Hs. subst; reflexivity.
  - simpl in Hl.
    rewrite <- (IH (s ++ [n])) by (rewrite <- ?app_assoc; simpl; auto; lia).
    assert (H2 : 1 < length (build (map Open l ++ c))) by (rewrite build_opens_length; lia).
    destruct (build (map Open l ++ c)) as [|f [|g r]]; simpl in H2; try lia.
    cbn [levels]. rewrite walks_cons, walk_elem, (Hp s n l) by auto.
    rewrite removelast_last. destruct (walks e FS (s ++ [n]) f v); reflexivity.
Qed.

Lemma common_prefix_spec a b :
  firstn (common_prefix a b) a = firstn (common_prefix a b) b
  /\ common_prefix a b <= length a /\ common_prefix a b <= length b.
Proof.
  revert b; induction a as [|x a IH]; intros b; simpl; [split; auto; lia|].
  destruct b as [|y b]; simpl; [split; auto; lia|].
  destruct (str_eqb x y) eqn:E; simpl; [|split; auto; lia].
  apply str_eqb_eq in E; subst y. destruct (IH b) as (H1 & H2 & H3).
  split; [f_equal; auto | lia].
Qed.

Ltac inv_bind H :=
  match type of H with
  | bind ?a ?f = Some _ =>
      let E := fresh "E" in destruct a eqn:E; [cbn [bind] in H | discriminate H]
  end.

Lemma is_nil_marshal t force nm om v nodes :
  is_nil t v = true -> marshal t force nm om v = Some nodes -> nodes = [].
Proof.
  destruct t; try discriminate. destruct v; [discriminate|].
  intros _ H. simpl in H. congruence.
Qed.

Lemma struct_cmds_length fs : forall s v c,
  struct_cmds fs s v = Some c -> length (build c) = S (length s).
Proof.
  induction fs as [|ps nm om t fs' IH]; intros s v c H; simpl in H.
  - injection H as <-. rewrite <- (app_nil_r (repeat _ _)), build_closes, app_length, repeat_length.
    simpl. lia.
  - inv_bind H. inv_bind H. injection H as <-.
    destruct (common_prefix_spec s ps) as (H1 & H2 & H3).
    apply IH in E0. rename l into nodes, l0 into rest.
    rewrite build_closes, app_length, repeat_length.
    destruct (is_nil t (fst v)) eqn:En.
    + rewrite (is_nil_marshal _ _ _ _ _ _ En E). simpl app. rewrite E0, firstn_length. lia.
    + assert (Hb : length (build (map Whole nodes ++ rest)) = S (length ps)).
      { destruct (build rest) as [|f r] eqn:Er; [discriminate|].
        rewrite (build_wholes _ _ _ _ Er). rewrite <- E0. reflexivity. }
      rewrite build_opens_length; rewrite Hb, skipn_length; lia.
Qed.

(** ** One element per value *)

Lemma single_one t omit force nm v nodes :
  single t omit = true -> marshal t force nm omit v = Some nodes ->
  exists n, nodes = [n].
Proof.
  destruct t; cbn [single marshal]; intros Hs H; try discriminate.
  - destruct l; cbn [leaf_empty leaf_marshal bind] in *; try discriminate;
      destruct omit; try discriminate; cbn [andb] in H; injection H as <-; eauto.
  - inv_bind H. injection H as <-. eauto.
  - inv_bind H. injection H as <-. eauto.
  - destruct omit; [discriminate|]. cbn [andb] in H. inv_bind H. injection H as <-. eauto.
  - destruct omit; [discriminate|]. cbn [andb] in H. inv_bind H. injection H as <-. eauto.
Qed.

(** ** Fields of a [TCustom] *)

Definition cust_embeds (FS fs : flds) (put : interp_flds fs -> interp_flds FS) : Prop :=
  forall nm k v, In nm (all_cust_names fs) ->
    match_custom FS nm k (put v) = option_map put (match_custom fs nm k v).

Lemma no_dup_spec l : no_dup l = true -> NoDup l.
Proof.
  induction l as [|x l IH]; cbn [no_dup]; intros H; [constructor|].
  apply andb_true_iff in H as [H1 H2]. constructor; auto.
  intros Hin. apply negb_true_iff in H1.
  assert (existsb (str_eqb x) l = true) by (apply existsb_exists; exists x; split; auto; apply str_eqb_refl).
  congruence.
Qed.

Lemma has_alt_spec a nm : has_alt a nm = true <-> In nm (alt_names a).
Proof.
  induction a as [|rd wr t a' IH]; simpl; [split; [discriminate|tauto]|].
  rewrite orb_true_iff, IH, str_eqb_eq. tauto.
Qed.

Lemma cust_names_spec nm t x :
  (match t with TAlts a => has_alt a x | _ => str_eqb nm x end) = true <-> In x (cust_names nm t).
Proof.
  destruct t; cbn [cust_names]; rewrite ?has_alt_spec; try tauto; rewrite str_eqb_eq; simpl; tauto.
Qed.

Lemma option_map_map {A B C} (f : A -> B) (g : B -> C) o :
  option_map g (option_map f o) = option_map (fun x => g (f x)) o.
Proof. destruct o; reflexivity. Qed.

Lemma cust_embeds_refl FS : cust_embeds FS FS (fun v => v).
Proof. intros nm k v _. destruct (match_custom FS nm k v); reflexivity. Qed.

Lemma cust_embeds_step FS qs n om t fs' put x :
  cust_embeds FS (FCons qs n om t fs') put ->
  NoDup (all_cust_names (FCons qs n om t fs')) ->
  cust_embeds FS fs' (fun v => put (x, v)).
Proof.
  intros He Hnd nm k v Hin. cbn [all_cust_names] in Hnd.
  rewrite (He nm k (x, v)) by (cbn [all_cust_names]; apply in_or_app; auto).
  cbn [match_custom fst snd].
  destruct (match t with TAlts a => has_alt a nm | _ => str_eqb n nm end) eqn:E.
  - apply cust_names_spec in E. exfalso.
    clear - E Hnd Hin. induction (cust_names n t) as [|y l IH]; [destruct E|].
    simpl in Hnd. inversion Hnd as [|? ? Hn Hnd']; subst. destruct E as [->|E]; auto.
    apply Hn. apply in_or_app; auto.
  - apply option_map_map.
Qed.

Lemma NoDup_app_r {A} (a b : list A) : NoDup (a ++ b) -> NoDup b.
Proof. induction a; simpl; auto. intros H; inversion H; auto. Qed.

(** Running the children of a hand-decoded element. *)
Definition steps {A} (e : env) (f : node -> str -> A -> option A) (kids : list node) : A -> option A :=
  run_all (map (fun n => token_step n (f n)) kids).

Lemma steps_app {A} e (f : node -> str -> A -> option A) a b v :
  steps e f (a ++ b) v = bind (steps e f a v) (steps e f b).
Proof. unfold steps. rewrite map_app, run_all_app. reflexivity. Qed.

Definition cust_step (e : env) (FS : flds) : node -> str -> interp_flds FS -> option (interp_flds FS) :=
  fun n nm v => match_custom FS nm (d_value (decode e n)) v.

Lemma unmarshal_custom e x FS nm kids old :
  unmarshal e (TCustom x FS) (Elem nm kids) old = steps e (cust_step e FS) kids old.
Proof. unfold unmarshal, steps, cust_step. simpl. rewrite map_map. reflexivity. Qed.

Definition alt_step (e : env) (a : alts) : node -> str -> list (interp_alts a) -> option (list (interp_alts a)) :=
  fun n nm v => option_map (fun x => v ++ [x]) (match_alts a nm (d_value (decode e n))).

Lemma unmarshal_altlist e x a nm kids old :
  unmarshal e (TAltList x a) (Elem nm kids) old = steps e (alt_step e a) kids old.
Proof. unfold unmarshal, steps, alt_step. simpl. rewrite map_map. reflexivity. Qed.

Lemma unmarshal_alts e a nm kids old :
  unmarshal e (TAlts a) (Elem nm kids) old
  = option_map (fun x => old ++ [x]) (match_alts a nm (d_value (decode e (Elem nm kids)))).
Proof.
  assert (H : forall (go : decoder),
    (fix go_alts (a : alts) : option (interp_alts a) :=
              match a return option (interp_alts a) with
              | ANil => None
              | ACons rd _ t a' =>
                  if str_eqb rd nm then option_map inl (go t (zero t))
                  else option_map inr (go_alts a')
              end) a = match_alts a nm go).
  { intros go. clear old. induction a as [|rd wr t a' IH]; [reflexivity|].
    cbn [match_alts]. rewrite <- IH. reflexivity. }
  rewrite <- H. reflexivity.
Qed.

Definition msgset_step (e : env) (fs : flds) : node -> str -> list (str * interp_flds fs) -> option (list (str * interp_flds fs)) :=
  fun n _ v => option_map (fun x => v ++ [x]) (d_msgset (decode e n) fs).

Lemma unmarshal_msgsets e fs nm kids old :
  unmarshal e (TMsgSets fs) (Elem nm kids) old = steps e (msgset_step e fs) kids old.
Proof. unfold unmarshal, steps, msgset_step. simpl. rewrite map_map. reflexivity. Qed.

Lemma unmarshal_struct e x fs nm kids old :
  unmarshal e (TStruct x fs) (Elem nm kids) old =
  if negb (null x) && negb (str_eqb x nm) then None else walks e fs [] kids old.
Proof. unfold unmarshal. rewrite <- decode_map_walk. reflexivity. Qed.

Lemma unmarshal_leaf e l nm kids old :
  unmarshal e (TLeaf l) (Elem nm kids) old = leaf_unmarshal e l (text_of kids).
Proof. reflexivity. Qed.

Lemma unmarshal_ptr e t nm kids old :
  unmarshal e (TPtr t) (Elem nm kids) old =
  option_map Some (unmarshal e t (Elem nm kids) (match old with Some v => v | None => zero t end)).
Proof. reflexivity. Qed.

Lemma unmarshal_slice e t nm kids old :
  unmarshal e (TSlice t) (Elem nm kids) old =
  option_map (fun v => old ++ [v]) (unmarshal e t (Elem nm kids) (zero t)).
Proof. reflexivity. Qed.

Lemma text_of_text_kids s : text_of (text_kids s) = s.
Proof. destruct s; simpl; rewrite ?app_nil_r; reflexivity. Qed.

(** ** The round trip *)

Definition named (nm : str) (n : node) : Prop := exists k, n = Elem nm k.

Definition P_ty (t : ty) : Prop := forall e force nm om v nodes,
  wf_ty t om = true -> rt_ok e t nm v -> marshal t force nm om v = Some nodes ->
  Forall (named nm) nodes /\ run_all (map (fun n => unmarshal e t n) nodes) (zero t) = Some v.

Definition P_struct (fs : flds) : Prop := forall e FS put s v c,
  embeds FS fs put -> paths_ok (sigs fs) = true -> wf_flds fs = true ->
  rt_flds e fs v -> struct_cmds fs s v = Some c ->
  levels e FS s (build c) (put (zero_flds fs)) = Some (put v).

Definition P_cust (fs : flds) : Prop := forall e FS put v kids,
  cust_embeds FS fs put -> NoDup (all_cust_names fs) -> wf_cust fs = true ->
  rt_flds e fs v -> custom_kids fs v = Some kids ->
  steps e (cust_step e FS) kids (put (zero_flds fs)) = Some (put v).

Definition P_alts (a : alts) : Prop := forall e v nodes,
  wf_alts a = true -> NoDup (alt_names a) -> rt_alt e a v -> marshal_alt a v = Some nodes ->
  exists nm k, nodes = [Elem nm k] /\ In nm (alt_names a) /\
    match_alts a nm (d_value (decode e (Elem nm k))) = Some v.

Lemma struct_content e fs v c :
  P_struct fs -> paths_ok (sigs fs) = true -> wf_flds fs = true ->
  rt_flds e fs v -> struct_cmds fs [] v = Some c ->
  walks e fs [] (content c) (zero_flds fs) = Some v.
Proof.
  intros HP Hok Hwf Hrt Hc.
  pose proof (struct_cmds_length _ _ _ _ Hc) as Hlen.
  specialize (HP e fs (fun v => v) [] v c (embeds_refl fs) Hok Hwf Hrt Hc).
  unfold content. destruct (build c) as [|f [|g r]]; try discriminate Hlen.
  simpl in HP |- *. unfold walks in *. destruct (run_all _ _); auto.
Qed.

Lemma slice_round e t nm om force l nodes :
  P_ty t -> wf_ty t om = true -> single t om = true -> Forall (rt_ok e t nm) l ->
  concat_opt (marshal t force nm om) l = Some nodes ->
  Forall (named nm) nodes /\
  forall old, run_all (map (fun n => unmarshal e (TSlice t) n) nodes) old = Some (old ++ l).
Proof.
  intros HP Hwf Hs. revert nodes. induction l as [|x l IH]; intros nodes Hrt H; simpl in H.
  - injection H as <-. split; [constructor|]. intros old. rewrite app_nil_r. reflexivity.
  - inv_bind H. inv_bind H. injection H as <-.
    inversion Hrt as [|? ? Hx Hl]; subst.
    destruct (single_one _ _ _ _ _ _ Hs E) as [n ->].
    destruct (HP _ _ _ _ _ _ Hwf Hx E) as [Hn Hr].
    destruct (IH _ Hl eq_refl) as [IHn IHr].
    split; [apply Forall_app; auto|].
    intros old. rewrite map_app, run_all_app.
    inversion Hn as [|? ? [k ->] _]; subst.
    cbn [map run_all] in Hr |- *. rewrite unmarshal_slice.
    destruct (unmarshal e t (Elem nm k) (zero t)) as [y|]; [|discriminate].
    cbn [bind] in Hr. injection Hr as ->. cbn [option_map bind].
    rewrite IHr, <- app_assoc. reflexivity.
Qed.

Lemma alts_round e a l nodes :
  P_alts a -> wf_alts a = true -> NoDup (alt_names a) -> Forall (rt_alt e a) l ->
  concat_opt (marshal_alt a) l = Some nodes ->
  Forall (fun n => exists nm k, n = Elem nm k /\ In nm (alt_names a)) nodes /\
  (forall old, steps e (alt_step e a) nodes old = Some (old ++ l)) /\
  forall old, run_all (map (fun n => unmarshal e (TAlts a) n) nodes) old = Some (old ++ l).
Proof.
  intros HP Hwf Hs. revert nodes. induction l as [|x l IH]; intros nodes Hrt H; simpl in H.
  - injection H as <-. split; [constructor|]. split; intros old; rewrite app_nil_r; reflexivity.
  - inv_bind H. inv_bind H. injection H as <-.
    inversion Hrt as [|? ? Hx Hl]; subst.
    destruct (HP _ _ _ Hwf Hs Hx E) as (nm & k & -> & Hin & Hr).
    destruct (IH _ Hl eq_refl) as (IHn & IHr & IHu).
    split; [constructor; eauto|]. split; intros old.
    + change ([Elem nm k] ++ ?w) with (Elem nm k :: w). unfold steps. cbn [map run_all token_step].
      fold (steps e (alt_step e a) l1). unfold alt_step at 1. rewrite Hr. cbn [option_map bind].
      rewrite IHr, <- app_assoc. reflexivity.
    + cbn [app map run_all]. rewrite unmarshal_alts, Hr. cbn [option_map bind].
      rewrite IHu, <- app_assoc. reflexivity.
Qed.

Lemma msgset_round e fs l nodes :
  P_struct fs -> paths_ok (sigs (FCons [] (bs "Name") false (TLeaf LString) fs)) = true ->
  wf_flds fs = true -> Forall (fun m => rt_flds e fs (snd m)) l ->
  concat_opt (fun m : str * interp_flds fs =>
               let '(nm, r) := m in
               if not_v1 nm || null (trim_v1 nm) then None
               else
                 c <- struct_cmds fs [] r ;;
                 Some [Elem (trim_v1 nm)
                         [Elem nm (Elem (bs "Name") (text_kids nm) :: content c)]]) l = Some nodes ->
  forall old, steps e (msgset_step e fs) nodes old = Some (old ++ l).
Proof.
  intros HP Hok Hwf. revert nodes. induction l as [|[nm r] l IH]; intros nodes Hrt H; cbn [concat_opt] in H.
  - injection H as <-. intros old. rewrite app_nil_r. reflexivity.
  - destruct (not_v1 nm || null (trim_v1 nm)); [discriminate|].
    inv_bind H. inv_bind E. injection E as <-. inv_bind H. injection H as <-.
    inversion Hrt as [|? ? Hx Hl]; subst. specialize (IH _ Hl eq_refl).
    intros old. unfold steps. cbn [map run_all token_step].
    fold (steps e (msgset_step e fs) l0).
    assert (Hd : d_msgset (decode e (Elem (trim_v1 nm)
        [Elem nm (Elem (bs "Name") (text_kids nm) :: content l1)])) fs = Some (nm, r)).
    { cbn [decode d_msgset map filter fst].
      change (mkDecoders _ _ _) with (decode e (Elem nm (Elem (bs "Name") (text_kids nm) :: content l1))).
      change (d_value ?d ?t ?v) with (unmarshal e t (Elem nm (Elem (bs "Name") (text_kids nm) :: content l1)) v).
      rewrite unmarshal_struct. cbn [null negb andb].
      rewrite walks_cons, walk_elem.
      assert (Hm : forall k v, match_fields (FCons [] (bs "Name") false (TLeaf LString) fs) [] (bs "Name") k v
                = Hit (option_map (fun x => (x, snd v)) (k (TLeaf LString) (fst v)))).
      { intros. cbn [match_fields strip_prefix]. rewrite str_eqb_refl. reflexivity. }
      rewrite Hm. cbn [fst snd].
      change (d_value (decode e (Elem (bs "Name") (text_kids nm))) (TLeaf LString) [])
        with (Some (trim_space (text_of (text_kids nm)))).
      cbn [option_map bind].
      pose proof (struct_cmds_length _ _ _ _ E0) as Hlen.
      pose proof (embeds_step (FCons [] (bs "Name") false (TLeaf LString) fs)
                    [] (bs "Name") false (TLeaf LString) fs (fun v => v) (trim_space (text_of (text_kids nm))) (embeds_refl _) Hok) as He.
      apply paths_ok_cons in Hok as [_ Hok].
      specialize (HP e _ _ [] _ _ He Hok Hwf Hx E0).
      unfold content. destruct (build l1) as [|f [|g w]]; try discriminate Hlen.
      cbn [levels hd] in HP |- *.
      match type of HP with bind ?w _ = _ => change (option_map (fun r0 => (nm, snd r0)) w = Some (nm, r)); destruct w as [[u1 u2]|]; [|discriminate] end.
      cbn [bind snd] in HP. injection HP as -> ->. reflexivity. }
    unfold msgset_step at 1.
    match goal with |- context [d_msgset (decode e ?x) fs] =>
      replace (d_msgset (decode e x) fs) with (Some (nm, r)) by (symmetry; exact Hd) end. cbn [option_map bind].
    rewrite IH, <- app_assoc. reflexivity.
Qed.

Definition P_ty' (t : ty) : Prop :=
  P_ty t /\ match t with TAlts a => P_alts a | _ => True end.

Lemma NoDup_app_l {A} (a b : list A) : NoDup (a ++ b) -> NoDup a.
Proof.
  induction a as [|x a IH]; simpl; [constructor|]. intros H; inversion H; subst.
  constructor; auto. intros Hin. apply H2. apply in_or_app; auto.
Qed.

Lemma round_trip_all :
  (forall t, P_ty' t) /\ (forall fs, P_struct fs /\ P_cust fs) /\ (forall a, P_alts a).
Proof.
  apply (schema_ind P_ty' (fun fs => P_struct fs /\ P_cust fs) P_alts).
  - (* TLeaf *)
    intros l. split; [|exact I]. intros e force nm om v nodes _ Hrt H. cbn [marshal] in H. cbn [rt_ok] in Hrt.
    assert (Hz : leaf_empty l v = true -> v = leaf_zero l).
    { destruct l; cbn [leaf_empty leaf_zero]; intros He; try discriminate;
        try (destruct v; [reflexivity | discriminate]);
        try (apply Z.eqb_eq in He; auto); try (apply N.eqb_eq in He; auto).
      destruct v; [discriminate | reflexivity]. }
    destruct (om && leaf_empty l v) eqn:E.
    + apply andb_true_iff in E as [_ E]. injection H as <-. rewrite (Hz E).
      split; [constructor | reflexivity].
    + unfold leaf_rt in Hrt. destruct (leaf_marshal l v) as [[s|]|]; [| |discriminate];
        cbn [bind] in H; injection H as <-.
      * split; [constructor; [exists (text_kids s); auto | constructor]|].
        cbn [map run_all]. rewrite unmarshal_leaf, text_of_text_kids, Hrt. reflexivity.
      * subst v. split; [constructor | reflexivity].
  - (* TStruct *)
    intros x fs [HP _]. split; [|exact I]. intros e force nm om v nodes Hwf [Hx Hrt] H. cbn [marshal] in H.
    inv_bind H. injection H as <-. cbn [wf_ty] in Hwf. apply andb_true_iff in Hwf as [Hok Hwf].
    assert (Hnm : (if force || null x then nm else x) = nm).
    { destruct force; auto. destruct Hx as [-> | ->]; auto. destruct nm; auto. }
    rewrite Hnm. split; [constructor; [eexists; eauto | constructor]|].
    cbn [map run_all]. rewrite unmarshal_struct.
    assert (Hc : negb (null x) && negb (str_eqb x nm) = false).
    { destruct Hx as [-> | ->]; auto. rewrite str_eqb_refl, andb_false_r. auto. }
    rewrite Hc. cbn [zero]. rewrite (struct_content _ _ _ _ HP Hok Hwf Hrt E). reflexivity.
  - (* TPtr *)
    intros t [IH _]. split; [|exact I]. intros e force nm om v nodes Hwf Hrt H. cbn [wf_ty] in Hwf.
    apply andb_true_iff in Hwf as [Hs Hwf].
    cbn [marshal] in H. destruct v as [v|].
    + destruct (IH _ _ _ _ _ _ Hwf Hrt H) as [Hn Hr].
      destruct (single_one _ _ _ _ _ _ Hs H) as [n ->]. split; auto.
      inversion Hn as [|? ? [k ->] _]; subst.
      cbn [map run_all] in Hr |- *. rewrite unmarshal_ptr. cbn [zero].
      destruct (unmarshal e t (Elem nm k) (zero t)); [|discriminate].
      cbn [bind] in Hr. injection Hr as ->. reflexivity.
    + injection H as <-. split; [constructor | reflexivity].
  - (* TSlice *)
    intros t [IH _]. split; [|exact I]. intros e force nm om v nodes Hwf Hrt H. cbn [wf_ty] in Hwf.
    apply andb_true_iff in Hwf as [Hs Hwf]. cbn [marshal] in H.
    destruct (om && null v) eqn:E.
    + apply andb_true_iff in E as [_ E]. destruct v; [|discriminate]. injection H as <-.
      split; [constructor | reflexivity].
    + destruct (slice_round _ _ _ _ _ _ _ IH Hwf Hs Hrt H) as [H1 H2]. split; auto.
      apply (H2 []).
  - (* TCustom *)
    intros x fs [_ HP]. split; [|exact I]. intros e force nm om v nodes Hwf [-> Hrt] H. cbn [marshal] in H.
    inv_bind H. injection H as <-. cbn [wf_ty] in Hwf. apply andb_true_iff in Hwf as [Hok Hwf].
    split; [constructor; [eexists; eauto | constructor]|].
    cbn [map run_all]. rewrite unmarshal_custom. cbn [zero].
    rewrite (HP e fs (fun v => v) v l (cust_embeds_refl fs) (no_dup_spec _ Hok) Hwf Hrt E).
    reflexivity.
  - (* TAlts *)
    intros a HP. split; [|exact HP]. intros e force nm om v nodes Hwf. discriminate.
  - (* TAltList *)
    intros x a HP. split; [|exact I]. intros e force nm om v nodes Hwf [-> Hrt] H. cbn [marshal] in H.
    cbn [wf_ty] in Hwf. apply andb_true_iff in Hwf as [Hok Hwf].
    destruct (om && null v) eqn:E.
    + apply andb_true_iff in E as [_ E]. destruct v; [|discriminate]. injection H as <-.
      split; [constructor | reflexivity].
    + inv_bind H. injection H as <-.
      destruct (alts_round _ _ _ _ HP Hwf (no_dup_spec _ Hok) Hrt E0) as (_ & Hr & _).
      split; [constructor; [eexists; eauto | constructor]|].
      cbn [map run_all]. rewrite unmarshal_altlist. cbn [zero]. rewrite Hr. reflexivity.
  - (* TMsgSets *)
    intros fs [HP _]. split; [|exact I]. intros e force nm om v nodes Hwf [-> Hrt] H. cbn [marshal] in H.
    cbn [wf_ty] in Hwf. apply andb_true_iff in Hwf as [Hok Hwf].
    destruct (om && null v) eqn:E.
    + apply andb_true_iff in E as [_ E]. destruct v; [|discriminate]. injection H as <-.
      split; [constructor | reflexivity].
    + inv_bind H. injection H as <-.
      split; [constructor; [eexists; eauto | constructor]|].
      cbn [map run_all]. rewrite unmarshal_msgsets. cbn [zero].
      rewrite (msgset_round _ _ _ _ HP Hok Hwf Hrt E0). reflexivity.
  - (* FNil *)
    split.
    + intros e FS put s v c _ _ _ _ H. cbn [struct_cmds] in H. injection H as <-.
      rewrite <- (app_nil_r (repeat _ _)), levels_closes by lia.
      destruct v. reflexivity.
    + intros e FS put v kids _ _ _ _ H. cbn [custom_kids] in H. injection H as <-.
      destruct v. reflexivity.
  - (* FCons *)
    intros ps nm om t [IHt IHa] fs [IHs IHc]. split.
    + intros e FS put s v c He Hok Hwf [Hrt1 Hrt2] H. destruct v as [x v]. cbn [fst snd] in *.
      cbn [struct_cmds fst snd] in H.
      inv_bind H. inv_bind H. injection H as <-. rename l into nodes, l0 into rest.
      cbn [wf_flds] in Hwf. apply andb_true_iff in Hwf as [Hwft Hwf].
      destruct (IHt _ _ _ _ _ _ Hwft Hrt1 E) as [Hn Hr].
      destruct (common_prefix_spec s ps) as (Hf & Hk1 & Hk2).
      pose proof (embeds_step _ _ _ _ _ _ _ x He Hok) as He'.
      pose proof (paths_ok_cons _ _ Hok) as [_ Hok'].
      pose proof (struct_cmds_length _ _ _ _ E0) as Hlen.
      specialize (IHs e FS _ _ _ _ He' Hok' Hwf Hrt2 E0).
      rewrite levels_closes by lia.
      replace (length s - (length s - common_prefix s ps)) with (common_prefix s ps) by lia.
      rewrite Hf. cbn [zero_flds].
      destruct (is_nil t x) eqn:En.
      * rewrite (is_nil_marshal _ _ _ _ _ _ En E) in *. cbn [map app run_all] in *.
        injection Hr as Hz. rewrite Hz. exact IHs.
      * rewrite (levels_opens e FS ps).
        -- rewrite levels_wholes by (intros Hb; rewrite Hb in Hlen; discriminate).
           assert (Hw : walks e FS ps nodes (put (zero t, zero_flds fs)) = Some (put (x, zero_flds fs))).
           { clear - He Hn Hr. revert Hr. generalize (zero t). unfold walks.
             induction nodes as [|n nodes IH]; intros z Hr; cbn [map run_all] in Hr |- *.
             - congruence.
             - inversion Hn as [|? ? [k ->] Hn']; subst.
               rewrite walk_elem, He.
               + cbn [match_fields fst snd]. rewrite strip_prefix_self, str_eqb_refl. cbn [found_map].
                 change (d_value (decode e (Elem nm k)) t z) with (unmarshal e t (Elem nm k) z).
                 destruct (unmarshal e t (Elem nm k) z) as [z'|]; [|discriminate].
                 cbn [option_map bind] in *. auto.
               + exists (ps ++ [nm]). split; [left; auto|].
                 apply prefixb_spec. exists []. rewrite app_nil_r; auto. }
           rewrite Hw. cbn [bind]. exact IHs.
        -- intros s' n l k ->. rewrite He.
           ++ cbn [match_fields]. rewrite strip_prefix_app, str_eqb_refl. reflexivity.
           ++ exists ((s' ++ n :: l) ++ [nm]). split; [left; auto|].
              apply prefixb_spec. exists (l ++ [nm]). rewrite <- !app_assoc. reflexivity.
        -- rewrite firstn_skipn. reflexivity.
        -- assert (Hb : length (build (map Whole nodes ++ rest)) = S (length ps)).
           { destruct (build rest) as [|f r] eqn:Er; [discriminate|].
             rewrite (build_wholes _ _ _ _ Er). rewrite <- Hlen. reflexivity. }
           rewrite Hb, skipn_length. lia.
    + intros e FS put v kids He Hnd Hwf [Hrt1 Hrt2] H. destruct v as [x v]. cbn [fst snd] in *.
      cbn [custom_kids fst snd] in H. inv_bind H. inv_bind H. injection H as <-.
      cbn [wf_cust] in Hwf. apply andb_true_iff in Hwf as [Hwft Hwf].
      pose proof (cust_embeds_step _ _ _ _ _ _ _ x He Hnd) as He'.
      pose proof (NoDup_app_r _ _ Hnd) as Hnd'.
      specialize (IHc e FS _ _ _ He' Hnd' Hwf Hrt2 E0).
      rewrite steps_app. cbn [zero_flds].
      assert (Hrun : Forall (fun n => exists nm' k, n = Elem nm' k /\ In nm' (cust_names nm t)) l /\
                     run_all (map (fun n => unmarshal e t n) l) (zero t) = Some x).
      { destruct t; try (destruct (IHt _ _ _ _ _ _ Hwft Hrt1 E) as [Hn Hr]; split; auto;
          eapply Forall_impl; [|exact Hn]; intros n [k ->]; exists nm, k; split; auto; left; auto).
        clear IHt. cbn [marshal] in E. cbn [rt_ok] in Hrt1.
        destruct (alts_round _ _ _ _ IHa Hwft (NoDup_app_l _ _ Hnd) Hrt1 E) as (H1 & _ & H2).
        split; [exact H1 | apply (H2 [])]. }
      destruct Hrun as [Hn Hr].
      assert (Hw : steps e (cust_step e FS) l (put (zero t, zero_flds fs)) = Some (put (x, zero_flds fs))).
      { clear - He Hn Hr. revert Hr. generalize (zero t). unfold steps.
        induction l as [|n nodes IH]; intros z Hr; cbn [map run_all] in Hr |- *.
        - congruence.
        - inversion Hn as [|? ? (nm' & k & -> & Hin) Hn']; subst.
          cbn [token_step]. unfold cust_step at 1. rewrite He by (cbn [all_cust_names]; apply in_or_app; auto).
          cbn [match_custom fst snd]. apply cust_names_spec in Hin. rewrite Hin.
          change (d_value (decode e (Elem nm' k)) t z) with (unmarshal e t (Elem nm' k) z).
          destruct (unmarshal e t (Elem nm' k) z) as [z'|]; [|discriminate].
          cbn [option_map bind] in *. auto. }
      rewrite Hw. exact IHc.
  - (* ANil *)
    intros e v. destruct v.
  - (* ACons *)
    intros rd wr t [IHt _] a IHa e v nodes Hwf Hnd Hrt H.
    cbn [wf_alts] in Hwf. apply andb_true_iff in Hwf as [Hwf Hwfa].
    apply andb_true_iff in Hwf as [Hwf Hwft]. apply andb_true_iff in Hwf as [Hrw Hs].
    apply str_eqb_eq in Hrw. subst wr.
    cbn [alt_names] in Hnd. inversion Hnd as [|? ? Hnin Hnd']; subst.
    cbn [marshal_alt] in H. cbn [rt_alt] in Hrt. destruct v as [x|y].
    + destruct (IHt _ _ _ _ _ _ Hwft Hrt H) as [Hn Hr].
      destruct (single_one _ _ _ _ _ _ Hs H) as [n ->].
      inversion Hn as [|? ? [k ->] _]; subst. exists rd, k.
      split; auto. split; [left; auto|]. cbn [match_alts]. rewrite str_eqb_refl.
      cbn [map run_all] in Hr. unfold unmarshal in Hr.
      destruct (d_value _ t (zero t)); [|discriminate]. cbn [bind] in Hr. injection Hr as ->. reflexivity.
    + destruct (IHa _ _ _ Hwfa Hnd' Hrt H) as (nm & k & -> & Hin & Hm).
      exists nm, k. split; auto. split; [right; auto|]. cbn [match_alts].
      destruct (str_eqb rd nm) eqn:E; [apply str_eqb_eq in E; subst; contradiction|].
      rewrite Hm. reflexivity.
Qed.
