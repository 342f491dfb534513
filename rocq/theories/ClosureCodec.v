(** What decoding keeps: a property of all scalar fields that the zero values and
    the text forms have, holds of everything a tree is decoded into. *)
From Coq Require Import QArith Lia Bool.
From Coq Require Import List.
From Verif Require Import GoStr SpecStr GoStrFacts GoTime Types Enums Codec CodecFacts CodecSim SpecCodec Schema.
Close Scope Q_scope.

(** The text anywhere in a tree. *)
Fixpoint texts (ok : str -> Prop) (n : node) : Prop :=
  match n with
  | Elem _ kids => (fix go l := match l with [] => True | k :: l => texts ok k /\ go l end) kids
  | Text s => ok s
  | Misc => True
  end.

Lemma texts_kids ok nm kids : texts ok (Elem nm kids) <-> Forall (texts ok) kids.
Proof.
  cbn [texts]. induction kids as [|k kids IH]; [split; auto|].
  rewrite Forall_cons_iff, IH. reflexivity.
Qed.

Lemma text_of_ok (ok : str -> Prop) kids : ok [] -> (forall a b, ok a -> ok b -> ok (a ++ b)) ->
  Forall (texts ok) kids -> ok (text_of kids).
Proof.
  intros H0 Ha H. induction H as [|k kids Hk _ IH]; [exact H0|].
  destruct k; cbn [text_of]; auto.
Qed.

(** A slice of structs that have another element name than the field is never
    filled. *)
Definition unreached (nm : str) (t : ty) : interp t -> Prop :=
  match t return interp t -> Prop with
  | TSlice (TStruct x _) => fun v => x <> [] -> x <> nm -> v = []
  | _ => fun _ => True
  end.

Fixpoint kept (P : forall l, leafval l -> Prop) (t : ty) : interp t -> Prop :=
  match t return interp t -> Prop with
  | TLeaf l => P l
  | TStruct _ fs => kept_field P fs
  | TPtr t => fun v => match v with None => True | Some v => kept P t v end
  | TSlice t => Forall (kept P t)
  | TCustom _ fs => kept_field P fs
  | TAlts a => Forall (kept_alt P a)
  | TAltList _ a => Forall (kept_alt P a)
  | TMsgSets fs => Forall (fun m => kept_field P fs (snd m))
  end
with kept_field (P : forall l, leafval l -> Prop) (fs : flds) : interp_flds fs -> Prop :=
  match fs return interp_flds fs -> Prop with
  | FNil => fun _ => True
  | FCons _ nm _ t fs' => fun v => (kept P t (fst v) /\ unreached nm t (fst v)) /\ kept_field P fs' (snd v)
  end
with kept_alt (P : forall l, leafval l -> Prop) (a : alts) : interp_alts a -> Prop :=
  match a return interp_alts a -> Prop with
  | ANil => fun _ => True
  | ACons _ _ t a' => fun v =>
      match v with inl x => kept P t x | inr y => kept_alt P a' y end
  end.

Lemma kept_every_all P :
  (forall t v, kept P t v -> every P t v) /\
  (forall fs v, kept_field P fs v -> every_field P fs v) /\
  (forall a v, kept_alt P a v -> every_alt P a v).
Proof.
  apply schema_ind.
  - intros l v H; exact H.
  - intros x fs IH v H; exact (IH v H).
  - intros t IH [v|] H; [exact (IH v H) | exact I].
  - intros t IH v H. cbn in *. revert H. apply Forall_impl, IH.
  - intros x fs IH v H; exact (IH v H).
  - intros a IH v H. cbn in *. revert H. apply Forall_impl, IH.
  - intros x a IH v H. cbn in *. revert H. apply Forall_impl, IH.
  - intros fs IH v H. cbn in *. revert H. apply Forall_impl. intros m. apply IH.
  - intros v H; exact I.
  - intros ps nm om t IHt fs IHf v [[H1 _] H2]. split; auto.
  - intros v H; exact I.
  - intros rd wr t IHt a IHa [v|v] H; cbn in *; auto.
Qed.

Lemma kept_every P t v : kept P t v -> every P t v.
Proof. apply kept_every_all. Qed.

Lemma kept_zero_all (P : forall l, leafval l -> Prop) : (forall l, P l (leaf_zero l)) ->
  (forall t, kept P t (zero t)) /\ (forall fs, kept_field P fs (zero_flds fs)) /\ (forall a : alts, True).
Proof.
  intros HP. apply schema_ind; try (intros; exact I); cbn; intros; auto.
  split; [|assumption]. split; [assumption|]. destruct t; try exact I. destruct t; try exact I. cbn. intros; reflexivity.
Qed.

Definition value_keeps (P : forall l, leafval l -> Prop) (k : decoder) : Prop := forall t v v', kept P t v -> k t v = Some v' -> kept P t v'.
Definition value_named (nm : str) (k : decoder) : Prop :=
  forall x fs v, x <> [] -> x <> nm -> k (TSlice (TStruct x fs)) v = None.

Lemma match_alts_keeps (P : forall l, leafval l -> Prop) (P0 : forall l, P l (leaf_zero l)) (k : decoder) : value_keeps P k -> forall a nm v, match_alts a nm k = Some v -> kept_alt P a v.
Proof.
  intros Hk. induction a as [|rd wr t a IH]; intros nm v H; [destruct v|]. cbn [match_alts] in H.
  destruct (str_eqb rd nm).
  - destruct (k t (zero t)) as [x|] eqn:E; [|discriminate]. injection H as <-. cbn.
    apply (Hk _ _ _ (proj1 (kept_zero_all P P0) t) E).
  - destruct (match_alts a nm k) as [x|] eqn:E; [|discriminate]. injection H as <-. cbn. eauto.
Qed.

Lemma unreached_keeps nm (k : decoder) t v v' : value_named nm k -> k t v = Some v' -> unreached nm t v'.
Proof.
  intros Hn H. destruct t as [| | |t| | | |]; try exact I. destruct t as [|x fs| | | | | |]; try exact I. cbn. intros Hx Hd.
  rewrite (Hn x fs v Hx Hd) in H. discriminate.
Qed.

Lemma match_fields_keeps (P : forall l, leafval l -> Prop) nm (k : decoder) : value_keeps P k -> value_named nm k -> forall fs ps v v',
  kept_field P fs v -> match_fields fs ps nm k v = Hit (Some v') -> kept_field P fs v'.
Proof.
  intros Hk Hn. induction fs as [|qs n om t fs IH]; intros ps v v' Hv H; [discriminate|].
  destruct v as [x y]. destruct Hv as [[H1 H2] H3]. cbn [fst snd] in H1, H2, H3.
  assert (Hnext : found_map (pair x) (match_fields fs ps nm k y) = Hit (Some v') -> kept_field P (FCons qs n om t fs) v').
  { intros E. destruct (match_fields fs ps nm k y) as [| |[r|]] eqn:Em; try discriminate. injection E as <-.
    split; [split; assumption|]. apply (IH _ _ _ H3 Em). }
  cbn [match_fields fst snd] in H. destruct (strip_prefix ps qs) as [[|p q]|].
  - destruct (str_eqb n nm) eqn:En; [|exact (Hnext H)]. apply str_eqb_eq in En as ->.
    destruct (k t x) as [x'|] eqn:Ex; [|discriminate]. injection H as <-.
    split; [|exact H3]. split; [exact (Hk _ _ _ H1 Ex) | exact (unreached_keeps _ _ _ _ _ Hn Ex)].
  - destruct (str_eqb p nm); [discriminate | exact (Hnext H)].
  - exact (Hnext H).
Qed.

Lemma match_custom_keeps (P : forall l, leafval l -> Prop) nm (k : decoder) : value_keeps P k -> value_named nm k -> forall fs v v',
  kept_field P fs v -> match_custom fs nm k v = Some v' -> kept_field P fs v'.
Proof.
  intros Hk Hn. induction fs as [|qs n om t fs IH]; intros v v' Hv H; [discriminate|].
  destruct v as [x y]. destruct Hv as [[H1 H2] H3]. cbn [fst snd] in H1, H2, H3.
  cbn [match_custom fst snd] in H.
  destruct (match t with TAlts a => has_alt a nm | _ => str_eqb n nm end) eqn:Et.
  - destruct (k t x) as [x'|] eqn:Ex; [|discriminate]. injection H as <-.
    split; [|exact H3]. split; [exact (Hk _ _ _ H1 Ex)|].
    destruct t; try exact I. apply str_eqb_eq in Et as ->. exact (unreached_keeps _ _ _ _ _ Hn Ex).
  - destruct (match_custom fs nm k y) as [y'|] eqn:Ey; [|discriminate]. injection H as <-.
    split; [split; assumption|]. exact (IH _ _ H3 Ey).
Qed.

Lemma run_all_keeps {A} (R : A -> Prop) (fs : list (A -> option A)) :
  Forall (fun f => forall v v', R v -> f v = Some v' -> R v') fs ->
  forall v v', R v -> run_all fs v = Some v' -> R v'.
Proof.
  induction 1 as [|f fs Hf _ IH]; intros v v' Hv H; [injection H as <-; exact Hv|].
  cbn [run_all] in H. destruct (f v) as [w|] eqn:E; [|discriminate]. cbn [bind] in H. eauto.
Qed.

Definition keeps (e : env) (P : forall l, leafval l -> Prop) (n : node) : Prop :=
  value_keeps P (d_value (decode e n)) /\
  (forall fs ps v v', kept_field P fs v -> d_walk (decode e n) fs ps v = Some v' -> kept_field P fs v') /\
  (forall fs r, d_msgset (decode e n) fs = Some r -> kept_field P fs (snd r)).

Lemma named_decoder e nm kids : value_named nm (d_value (decode e (Elem nm kids))).
Proof.
  intros x fs v Hx Hd. change (unmarshal e (TSlice (TStruct x fs)) (Elem nm kids) v = None).
  rewrite unmarshal_slice, unmarshal_struct. destruct x as [|c x]; [contradiction|]. cbn [null negb andb].
  destruct (str_eqb (c :: x) nm) eqn:E; [apply str_eqb_eq in E; contradiction | reflexivity].
Qed.

Lemma walks_keeps e P kids : Forall (keeps e P) kids -> forall fs ps v v', kept_field P fs v -> walks e fs ps kids v = Some v' -> kept_field P fs v'.
Proof.
  intros H fs ps. unfold walks. apply run_all_keeps. apply Forall_map. revert H. apply Forall_impl.
  intros n (_ & H & _). exact (H fs ps).
Qed.

Lemma steps_keeps {A} e (R : A -> Prop) (f : node -> str -> A -> option A) kids :
  Forall (fun n => forall nm k v v', n = Elem nm k -> R v -> f n nm v = Some v' -> R v') kids ->
  forall v v', R v -> steps e f kids v = Some v' -> R v'.
Proof.
  intros H. unfold steps. apply run_all_keeps. apply Forall_map. revert H. apply Forall_impl.
  intros n Hn v v' Hv E. destruct n as [nm k|s|]; cbn [token_step] in E.
  - exact (Hn _ _ _ _ eq_refl Hv E).
  - destruct (blank s); [injection E as <-; exact Hv | discriminate].
  - discriminate.
Qed.

Lemma Forall_snoc {A} (R : A -> Prop) l x : Forall R l -> R x -> Forall R (l ++ [x]).
Proof. intros. apply Forall_app. auto. Qed.

Theorem decode_keeps e (P : forall l, leafval l -> Prop) (P0 : forall l, P l (leaf_zero l)) (ok : str -> Prop) (ok_nil : ok []) (ok_app : forall a b, ok a -> ok b -> ok (a ++ b))
  (P_text : forall l s v, ok s -> leaf_unmarshal e l s = Some v -> P l v) n : texts ok n -> keeps e P n.
Proof.
  induction n as [nm kids IH|s|] using node_ind'; intros Hok.
  2: { split; [intros t v v' _ H; discriminate|]. split; [intros fs ps v v' Hv [= <-]; exact Hv | discriminate]. }
  2: { split; [intros t v v' _ H; discriminate|]. split; [intros fs ps v v' Hv [= <-]; exact Hv | discriminate]. }
  apply texts_kids in Hok.
  assert (Hkids : Forall (keeps e P) kids).
  { clear - IH Hok. induction IH as [|k l Hk _ IHl]; [constructor|]. inversion Hok; subst. constructor; auto. }
  assert (Hv : value_keeps P (d_value (decode e (Elem nm kids)))).
  { unfold value_keeps. change (d_value (decode e (Elem nm kids))) with (fun t v => unmarshal e t (Elem nm kids) v).
    cut ((forall t v v', kept P t v -> unmarshal e t (Elem nm kids) v = Some v' -> kept P t v') /\ (forall fs : flds, True) /\
         (forall a v, match_alts a nm (d_value (decode e (Elem nm kids))) = Some v -> kept_alt P a v)); [intros H; apply H|].
    apply schema_ind.
    - intros l v v' _ H. rewrite unmarshal_leaf in H. apply (P_text l _ _ (text_of_ok ok kids ok_nil ok_app Hok) H).
    - intros x fs _ v v' Hv H. rewrite unmarshal_struct in H. destruct (_ && _); [discriminate|].
      exact (walks_keeps e P kids Hkids fs [] v v' Hv H).
    - intros t IHt v v' Hv H. rewrite unmarshal_ptr in H.
      destruct (unmarshal e t (Elem nm kids) _) as [w|] eqn:E; [|discriminate]. injection H as <-.
      cbn. apply (IHt _ _) in E; [exact E|]. destruct v as [v|]; [exact Hv | apply (proj1 (kept_zero_all P P0))].
    - intros t IHt v v' Hv H. rewrite unmarshal_slice in H.
      destruct (unmarshal e t (Elem nm kids) _) as [w|] eqn:E; [|discriminate]. injection H as <-.
      cbn. apply Forall_snoc; [exact Hv|]. apply (IHt _ _ (proj1 (kept_zero_all P P0) t) E).
    - intros x fs _ v v' Hv H. rewrite unmarshal_custom in H. revert Hv H. cbn [kept]. apply steps_keeps.
      revert Hkids. apply Forall_impl. intros n (Hn & _) m k w w' -> Hw E. unfold cust_step in E.
      exact (match_custom_keeps P m _ Hn (named_decoder e m k) fs w w' Hw E).
    - intros a IHa v v' Hv H. rewrite unmarshal_alts in H.
      destruct (match_alts a nm _) as [w|] eqn:E; [|discriminate]. injection H as <-.
      cbn. apply Forall_snoc; [exact Hv | exact (IHa _ eq_refl)].
    - intros x a _ v v' Hv H. rewrite unmarshal_altlist in H. revert Hv H. cbn [kept]. apply steps_keeps.
      revert Hkids. apply Forall_impl. intros n (Hn & _) m k w w' -> Hw E. unfold alt_step in E.
      destruct (match_alts a m _) as [u|] eqn:Eu; [|discriminate]. injection E as <-.
      apply Forall_snoc; [exact Hw | exact (match_alts_keeps P P0 _ Hn a m u Eu)].
    - intros fs _ v v' Hv H. rewrite unmarshal_msgsets in H. revert Hv H. cbn [kept]. apply steps_keeps.
      revert Hkids. apply Forall_impl. intros n (_ & _ & Hn) m k w w' -> Hw E. unfold msgset_step in E.
      destruct (d_msgset _ fs) as [u|] eqn:Eu; [|discriminate]. injection E as <-.
      apply Forall_snoc; [exact Hw | exact (Hn fs u Eu)].
    - exact I.
    - intros; exact I.
    - intros v. destruct v.
    - intros rd wr t IHt a IHa v H. cbn [match_alts] in H. destruct (str_eqb rd nm).
      + destruct (d_value (decode e (Elem nm kids)) t (zero t)) as [w|] eqn:E; [|discriminate]. injection H as <-.
        cbn. exact (IHt _ _ (proj1 (kept_zero_all P P0) t) E).
      + destruct (match_alts a nm _) as [w|] eqn:E; [|discriminate]. injection H as <-. cbn. exact (IHa _ eq_refl). }
  split; [exact Hv|]. split.
  - intros fs ps v v' Hf H. rewrite walk_elem in H.
    destruct (match_fields fs ps nm (d_value (decode e (Elem nm kids))) v) as [| |r] eqn:E.
    + injection H as <-. exact Hf.
    + exact (walks_keeps e P kids Hkids _ _ _ _ Hf H).
    + subst r. exact (match_fields_keeps P nm _ Hv (named_decoder e nm kids) fs ps v v' Hf E).
  - intros fs r H. rewrite msgset_elem in H. destruct (solid kids) as [|[vn k| |] [|]] eqn:E; try discriminate.
    assert (Hin : In (Elem vn k) kids).
    { apply (incl_filter (fun n => match n with Text s => negb (blank s) | _ => true end) kids). fold (solid kids).
      rewrite E. left. reflexivity. }
    destruct (proj1 (Forall_forall _ _) Hkids _ Hin) as (Hk & _).
    destruct (unmarshal e _ (Elem vn k) _) as [w|] eqn:Ew; [|discriminate]. injection H as <-. cbn [snd].
    assert (Hz : kept P (TStruct [] (FCons [] (bs "Name") false (TLeaf LString) fs)) ([], zero_flds fs)).
    { split; [split; [exact (P0 LString) | exact I] | apply (proj2 (kept_zero_all P P0))]. }
    exact (proj2 (Hk _ _ _ Hz Ew)).
Qed.

Theorem unmarshal_kept e (P : forall l, leafval l -> Prop) (ok : str -> Prop) : (forall l, P l (leaf_zero l)) -> ok [] -> (forall a b, ok a -> ok b -> ok (a ++ b)) ->
  (forall l s v, ok s -> leaf_unmarshal e l s = Some v -> P l v) ->
  forall n t v, texts ok n -> unmarshal e t n (zero t) = Some v -> kept P t v.
Proof.
  intros P0 On Oa Pt n t v Hn H.
  exact (proj1 (decode_keeps e P P0 ok On Oa Pt n Hn) t _ _ (proj1 (kept_zero_all P P0) t) H).
Qed.
