(** Facts about Document.v. *)
From Coq Require Import QArith Lia Bool.
From Coq Require Import List.
From Verif Require Import GoStr SpecStr SpecNum SpecDate GoStrFacts GoNum GoNumFacts GoRat RatFacts GoTime
  Types TypesFacts DateFacts Enums EnumTables EnumFacts Records Common Messages Codec CodecFacts CodecSim
  SpecCodec Schema Document SpecDocument.
Close Scope Q_scope.

(** ** Values that survive *)

Lemma enum_wfb_wf t : enum_wfb t = true -> enum_wf t.
Proof.
  unfold enum_wfb. rewrite !andb_true_iff, !N.eqb_eq. intros [[[H1 H2] H3] H4].
  constructor; auto using nodupb_spec.
  rewrite forallb_forall in H4. intros n Hn. apply trimmedb_spec, H4, Hn.
Qed.

Lemma trimmed_trims_to s : trimmed s -> trims_to s s.
Proof.
  intros H. exists [], []. split; [constructor|]. split; [constructor|].
  split; [rewrite app_nil_r; reflexivity | exact H].
Qed.

Lemma leaf_ok_rt e l v :
  (forall t, l = LEnum t -> enum_wfb t = true) -> leaf_ok e l v -> leaf_rt e l v.
Proof.
  intros Hen H. unfold leaf_rt.
  destruct l; cbn [leaf_marshal leaf_unmarshal leaf_ok leafval leaf_zero] in *.
  - pose proof (int_round_trip v [] [] H ws_nil ws_nil) as R.
    rewrite app_nil_r, app_nil_l in R. exact R.
  - f_equal. apply trimmed_fix_iff. exact H.
  - destruct H as [Hr [k Hk]].
    pose proof (amount_round_trip v k [] [] Hk ws_nil ws_nil) as R.
    rewrite app_nil_r, app_nil_l, Hr in R. exact R.
  - destruct H as (c & off & n & -> & Hc & Hd & Ho & Hs & Hn).
    destruct Hn as [Hn | (-> & Hz & Hl)].
    + pose proof (date_round_trip_named e c off n [] [] Hc Hd Ho Hs Hn ws_nil) as R.
      rewrite app_nil_r, app_nil_l in R. exact R.
    + destruct (date_round_trip_unnamed e c off [] [] Hc Hd Ho Hs Hz ws_nil) as (nm & R & Hnm).
      rewrite app_nil_r, app_nil_l in R. rewrite (Hnm Hl) in R. exact R.
  - destruct v; reflexivity.
  - f_equal. apply trimmed_fix_iff. exact H.
  - destruct H as (Hlen & Hup & Hcur).
    assert (Ht : trims_to v v).
    { apply trimmed_trims_to. apply trimmed_all_plain. apply upper_plain. exact Hup. }
    unfold curr_marshal. rewrite (new_curr_same e v v Ht).
    apply new_curr_iff. split; auto. split; auto.
    unfold case_variant. clear - Hup. induction Hup; constructor; auto.
  - assert (Hwf : enum_wf t).
    { apply enum_wfb_wf. apply Hen. reflexivity. }
    unfold enum_marshal. destruct H as [-> | H].
    + assert (E : enum_valid t 0 = false).
      { destruct (enum_valid t 0) eqn:E; auto. apply (enum_valid_range t 0 Hwf) in E. lia. }
      rewrite E. reflexivity.
    + assert (E : enum_valid t v = true) by (apply (enum_valid_range t v Hwf); exact H).
      rewrite E. cbn [negb]. destruct (enum_index_valid t v Hwf E) as (n & Hi & Hin & Hn). rewrite Hi.
      unfold enum_unmarshal. rewrite (enum_from_string_name t v n Hwf E Hn n); auto.
      apply trimmed_trims_to. apply (wf_trimmed t Hwf). exact Hin.
Qed.

(** The enumerations inside a type are well formed. *)
Fixpoint enums_ok (t : ty) : bool :=
  match t with
  | TLeaf (LEnum t) => enum_wfb t
  | TLeaf _ => true
  | TStruct _ fs | TCustom _ fs | TMsgSets fs => enums_ok_flds fs
  | TPtr t | TSlice t => enums_ok t
  | TAlts a | TAltList _ a => enums_ok_alts a
  end
with enums_ok_flds (fs : flds) : bool :=
  match fs with
  | FNil => true
  | FCons _ _ _ t fs' => enums_ok t && enums_ok_flds fs'
  end
with enums_ok_alts (a : alts) : bool :=
  match a with
  | ANil => true
  | ACons _ _ t a' => enums_ok t && enums_ok_alts a'
  end.

(** The name of a struct's XMLName tag is the name of the field that holds it. *)
Fixpoint names_ok (t : ty) (nm : str) : bool :=
  match t with
  | TLeaf _ => true
  | TStruct x fs => (null x || str_eqb x nm) && names_ok_flds fs
  | TPtr t | TSlice t => names_ok t nm
  | TCustom x fs => str_eqb x nm && names_ok_flds fs
  | TAlts a => names_ok_alts a
  | TAltList x a => str_eqb x nm && names_ok_alts a
  | TMsgSets fs => str_eqb nm (bs "MSGSETLIST") && names_ok_flds fs
  end
with names_ok_flds (fs : flds) : bool :=
  match fs with
  | FNil => true
  | FCons _ nm _ t fs' => names_ok t nm && names_ok_flds fs'
  end
with names_ok_alts (a : alts) : bool :=
  match a with
  | ANil => true
  | ACons rd _ t a' => names_ok t rd && names_ok_alts a'
  end.

Lemma representable_rt_all e :
  (forall t nm v, enums_ok t = true -> names_ok t nm = true -> every (leaf_ok e) t v -> rt_ok e t nm v) /\
  (forall fs v, enums_ok_flds fs = true -> names_ok_flds fs = true -> every_field (leaf_ok e) fs v -> rt_flds e fs v) /\
  (forall a v, enums_ok_alts a = true -> names_ok_alts a = true -> every_alt (leaf_ok e) a v -> rt_alt e a v).
Proof.
  apply schema_ind.
  - intros l nm v He _ H. cbn [rt_ok every] in *. apply leaf_ok_rt; [|exact H].
    intros t ->. exact He.
  - intros x fs IH nm v He Hn H. cbn [rt_ok every enums_ok names_ok] in *.
    apply andb_true_iff in Hn as [Hx Hn]. split; [|apply IH; assumption].
    destruct x as [|c x]; [left; auto|]. right. apply str_eqb_eq. exact Hx.
  - intros t IH nm v He Hn H. destruct v as [v|]; cbn [rt_ok every] in *; auto.
  - intros t IH nm v He Hn H. cbn [rt_ok every enums_ok names_ok] in *.
    eapply Forall_impl; [|exact H]. intros a Ha. apply IH; assumption.
  - intros x fs IH nm v He Hn H. cbn [rt_ok every enums_ok names_ok] in *.
    apply andb_true_iff in Hn as [Hx Hn]. split; [apply str_eqb_eq; exact Hx|apply IH; assumption].
  - intros a IH nm v He Hn H. cbn [rt_ok every enums_ok names_ok] in *.
    eapply Forall_impl; [|exact H]. intros y Hy. apply IH; assumption.
  - intros x a IH nm v He Hn H. cbn [rt_ok every enums_ok names_ok] in *.
    apply andb_true_iff in Hn as [Hx Hn]. split; [apply str_eqb_eq; exact Hx|].
    eapply Forall_impl; [|exact H]. intros y Hy. apply IH; assumption.
  - intros fs IH nm v He Hn H. cbn [rt_ok every enums_ok names_ok] in *.
    apply andb_true_iff in Hn as [Hx Hn]. split; [apply str_eqb_eq; exact Hx|].
    eapply Forall_impl; [|exact H]. intros y Hy. apply IH; assumption.
  - intros; exact I.
  - intros ps nm om t IHt fs IHfs v He Hn H.
    cbn [rt_flds every_field enums_ok_flds names_ok_flds] in *.
    apply andb_true_iff in He as [He1 He2]. apply andb_true_iff in Hn as [Hn1 Hn2].
    destruct H as [H1 H2]. split; [apply IHt | apply IHfs]; assumption.
  - intros; exact I.
  - intros rd wr t IHt a IHa v He Hn H.
    cbn [rt_alt every_alt enums_ok_alts names_ok_alts] in *.
    apply andb_true_iff in He as [He1 He2]. apply andb_true_iff in Hn as [Hn1 Hn2].
    destruct v; [apply IHt | apply IHa]; assumption.
Qed.

Lemma representable_rt e t nm v :
  enums_ok t && names_ok t nm = true -> every (leaf_ok e) t v -> rt_ok e t nm v.
Proof. intros H. apply andb_true_iff in H as [H1 H2]. apply representable_rt_all; assumption. Qed.

(** ** When encoding succeeds *)

Definition good_set_name (n : str) : Prop := not_v1 n || null (trim_v1 n) = false.

Fixpoint enc_ok (t : ty) : interp t -> Prop :=
  match t return interp t -> Prop with
  | TLeaf _ => fun _ => True
  | TStruct _ fs | TCustom _ fs => enc_ok_flds fs
  | TPtr t => fun v => match v with None => True | Some v => enc_ok t v end
  | TSlice t => Forall (enc_ok t)
  | TAlts a | TAltList _ a => Forall (enc_ok_alt a)
  | TMsgSets fs => Forall (fun m => good_set_name (fst m) /\ enc_ok_flds fs (snd m))
  end
with enc_ok_flds (fs : flds) : interp_flds fs -> Prop :=
  match fs return interp_flds fs -> Prop with
  | FNil => fun _ => True
  | FCons _ _ _ t fs' => fun v => enc_ok t (fst v) /\ enc_ok_flds fs' (snd v)
  end
with enc_ok_alt (a : alts) : interp_alts a -> Prop :=
  match a return interp_alts a -> Prop with
  | ANil => fun _ => True
  | ACons _ _ t a' => fun v =>
      match v with inl x => enc_ok t x | inr y => enc_ok_alt a' y end
  end.

Definition some {A} (o : option A) : Prop := o <> None.

Lemma some_bind {A B} (a : option A) (f : A -> option B) :
  some (bind a f) <-> exists x, a = Some x /\ some (f x).
Proof.
  unfold some. destruct a as [x|]; cbn [bind].
  - split; [eauto|]. intros (y & E & H). injection E as ->. exact H.
  - split; [congruence|]. intros (y & E & _). discriminate.
Qed.

Lemma some_ex {A} (o : option A) : some o <-> exists x, o = Some x.
Proof. unfold some. destruct o; split; eauto; try congruence. intros []; discriminate. Qed.

Lemma some_concat {A B} (f : A -> option (list B)) l :
  some (concat_opt f l) <-> Forall (fun x => some (f x)) l.
Proof.
  induction l as [|x l IH]; cbn [concat_opt].
  - split; [constructor | discriminate].
  - rewrite some_bind. split.
    + intros (a & E & H). apply some_bind in H as (b & E' & _). constructor.
      * rewrite E. discriminate.
      * apply IH. rewrite E'. discriminate.
    + intros H. inversion H as [|? ? H1 H2]; subst. apply some_ex in H1 as [a Ha].
      apply IH in H2. apply some_ex in H2 as [b Hb].
      exists a. split; auto. rewrite Hb. discriminate.
Qed.

Lemma Forall_iff {A} (P Q : A -> Prop) l : (forall x, P x <-> Q x) -> (Forall P l <-> Forall Q l).
Proof. intros H. split; intros F; (eapply Forall_impl; [|exact F]); intros x; apply H. Qed.

Lemma some_marshal_all :
  (forall t force nm om v, enums_ok t = true -> (some (marshal t force nm om v) <-> enc_ok t v)) /\
  (forall fs, (forall st v, enums_ok_flds fs = true -> (some (struct_cmds fs st v) <-> enc_ok_flds fs v)) /\
              (forall v, enums_ok_flds fs = true -> (some (custom_kids fs v) <-> enc_ok_flds fs v))) /\
  (forall a v, enums_ok_alts a = true -> (some (marshal_alt a v) <-> enc_ok_alt a v)).
Proof.
  apply schema_ind.
  - intros l force nm om v He. cbn [marshal enc_ok]. split; [auto|intros _].
    destruct (om && leaf_empty l v); [discriminate|].
    destruct l; cbn [leaf_marshal bind]; try discriminate.
    cbn [enums_ok] in He. apply enum_wfb_wf in He. unfold enum_marshal.
    destruct (enum_valid t v) eqn:Ev; cbn [negb bind]; [|discriminate].
    destruct (enum_index_valid t v He Ev) as (n & -> & _). discriminate.
  - intros x fs [IH _] force nm om v He. cbn [marshal enc_ok enums_ok] in *. rewrite some_bind, <- (IH [] v He).
    rewrite some_ex. split; [intros (c & E & _); eauto | intros [c E]; exists c; split; [auto|discriminate]].
  - intros t IH force nm om v He. cbn [marshal enc_ok enums_ok] in *. destruct v as [v|]; [apply IH; auto|].
    split; [auto|discriminate].
  - intros t IH force nm om v He. cbn [marshal enc_ok enums_ok] in *.
    destruct (om && null v) eqn:E.
    + apply andb_true_iff in E as [_ E]. destruct v; [|discriminate]. split; [constructor|discriminate].
    + rewrite some_concat. apply Forall_iff. intros x. apply IH; auto.
  - intros x fs [_ IH] force nm om v He. cbn [marshal enc_ok enums_ok] in *. rewrite some_bind, <- (IH v He).
    rewrite some_ex. split; [intros (c & E & _); eauto | intros [c E]; exists c; split; [auto|discriminate]].
  - intros a IH force nm om v He. cbn [marshal enc_ok enums_ok] in *. rewrite some_concat.
    apply Forall_iff. intros x. apply IH; auto.
  - intros x a IH force nm om v He. cbn [marshal enc_ok enums_ok] in *.
    destruct (om && null v) eqn:E.
    + apply andb_true_iff in E as [_ E]. destruct v; [|discriminate]. split; [constructor|discriminate].
    + rewrite some_bind. transitivity (some (concat_opt (marshal_alt a) v)).
      * rewrite some_ex. split; [intros (c & E' & _); eauto | intros [c E']; exists c; split; [auto|discriminate]].
      * rewrite some_concat. apply Forall_iff. intros y. apply IH; auto.
  - intros fs [IH _] force nm om v He. cbn [marshal enc_ok enums_ok] in *.
    destruct (om && null v) eqn:E.
    + apply andb_true_iff in E as [_ E]. destruct v; [|discriminate]. split; [constructor|discriminate].
    + rewrite some_bind.
      match goal with |- context [concat_opt ?f v] => set (g := f) end.
      transitivity (some (concat_opt g v)).
      * rewrite some_ex. split; [intros (c & E' & _); eauto | intros [c E']; exists c; split; [auto|discriminate]].
      * rewrite some_concat. apply Forall_iff. intros [n r]. unfold g. cbn [fst snd]. unfold good_set_name.
        destruct (not_v1 n || null (trim_v1 n)).
        -- split; [intros H; exfalso; apply H; reflexivity | intros [H _]; discriminate].
        -- rewrite <- (IH [] r He), some_bind, some_ex. split.
           ++ intros (c & E' & _). eauto.
           ++ intros [_ [c E']]. exists c. split; [auto|discriminate].
  - split; intros; cbn [struct_cmds custom_kids enc_ok_flds]; (split; [auto|discriminate]).
  - intros ps nm om t IHt fs [IHs IHc]. split.
    + intros st v He. cbn [struct_cmds enc_ok_flds enums_ok_flds] in *. apply andb_true_iff in He as [He1 He2].
      rewrite some_bind. split.
      * intros (a & E & H). apply some_bind in H as (b & E' & _). split.
        -- apply (IHt false nm om (fst v) He1). rewrite E. discriminate.
        -- eapply IHs; auto. rewrite E'. discriminate.
      * intros [H1 H2]. apply (IHt false nm om (fst v) He1) in H1. apply some_ex in H1 as [a Ha].
        exists a. split; auto. apply some_bind.
        match goal with |- exists x, struct_cmds fs ?s ?w = _ /\ _ =>
          apply (IHs s w He2) in H2; apply some_ex in H2 as [b Hb]; exists b; split; [exact Hb|discriminate] end.
    + intros v He. cbn [custom_kids enc_ok_flds enums_ok_flds] in *. apply andb_true_iff in He as [He1 He2].
      rewrite some_bind. split.
      * intros (a & E & H). apply some_bind in H as (b & E' & _). split.
        -- apply (IHt true nm false (fst v) He1). rewrite E. discriminate.
        -- eapply IHc; auto. rewrite E'. discriminate.
      * intros [H1 H2]. apply (IHt true nm false (fst v) He1) in H1. apply some_ex in H1 as [a Ha].
        exists a. split; auto. apply some_bind.
        apply (IHc (snd v) He2) in H2. apply some_ex in H2 as [b Hb]. exists b. split; [exact Hb|discriminate].
  - intros v. destruct v.
  - intros rd wr t IHt a IHa v He. cbn [marshal_alt enc_ok_alt enums_ok_alts] in *.
    apply andb_true_iff in He as [He1 He2]. destruct v; [apply IHt | apply IHa]; auto.
Qed.

Fixpoint no_msgsets (t : ty) : bool :=
  match t with
  | TLeaf _ => true
  | TStruct _ fs | TCustom _ fs => no_msgsets_flds fs
  | TPtr t | TSlice t => no_msgsets t
  | TAlts a | TAltList _ a => no_msgsets_alts a
  | TMsgSets _ => false
  end
with no_msgsets_flds (fs : flds) : bool :=
  match fs with
  | FNil => true
  | FCons _ _ _ t fs' => no_msgsets t && no_msgsets_flds fs'
  end
with no_msgsets_alts (a : alts) : bool :=
  match a with
  | ANil => true
  | ACons _ _ t a' => no_msgsets t && no_msgsets_alts a'
  end.

Lemma no_msgsets_enc_all :
  (forall t v, no_msgsets t = true -> enc_ok t v) /\
  (forall fs v, no_msgsets_flds fs = true -> enc_ok_flds fs v) /\
  (forall a v, no_msgsets_alts a = true -> enc_ok_alt a v).
Proof.
  apply schema_ind; cbn [no_msgsets no_msgsets_flds no_msgsets_alts enc_ok enc_ok_flds enc_ok_alt]; auto.
  - intros t IH [v|] H; auto.
  - intros t IH v H. apply Forall_forall. auto.
  - intros a IH v H. apply Forall_forall. auto.
  - intros x a IH v H. apply Forall_forall. auto.
  - intros fs _ v H. discriminate.
  - intros ps nm om t IHt fs IHfs v H. apply andb_true_iff in H as [H1 H2]. auto.
  - intros rd wr t IHt a IHa [v|v] H; apply andb_true_iff in H as [H1 H2]; auto.
Qed.

Lemma marshal_some t force nm om v :
  enums_ok t && no_msgsets t = true -> exists nodes, marshal t force nm om v = Some nodes.
Proof.
  intros H. apply andb_true_iff in H as [H1 H2]. apply some_ex. apply some_marshal_all; auto.
  apply no_msgsets_enc_all; auto.
Qed.

(** ** Messages *)

Lemma good_set_name_iff n : good_set_name n <-> message_set_name n.
Proof.
  unfold good_set_name, not_v1, message_set_name. rewrite orb_false_iff, negb_false_iff.
  unfold trim_v1. split.
  - intros [H1 H2]. apply has_suffix_spec in H1 as [stem ->]. exists stem. split; [|reflexivity].
    intros ->. discriminate.
  - intros (stem & Hs & ->). split; [apply has_suffix_spec; eauto|].
    destruct stem as [|c stem]; [congruence|].
    rewrite app_length, Nat.add_sub. reflexivity.
Qed.

(** The name of the element a message struct is written to. *)
Definition top_name (t : ty) : str :=
  match t with TStruct x _ | TCustom x _ => x | _ => [] end.

Lemma top_marshal t v : top_name t <> [] ->
  encode_as t v = marshal t false (top_name t) false v /\
  (forall nodes, encode_as t v = Some nodes -> exists k, nodes = [Elem (top_name t) k]).
Proof.
  unfold encode_as. intros H. destruct t as [|x fs| | |x fs| | |]; try (cbn [top_name] in H; congruence).
  - cbn [top_name] in *. destruct x as [|c x]; [congruence|]. cbn [marshal null orb]. split; [reflexivity|].
    intros nodes E. destruct (struct_cmds fs [] v); [|discriminate]. cbn [bind] in E. injection E as <-. eauto.
  - cbn [top_name marshal]. split; [reflexivity|]. intros nodes E.
    destruct (custom_kids fs v); [|discriminate]. cbn [bind] in E. injection E as <-. eauto.
Qed.

Lemma top_round e t v nodes :
  negb (null (top_name t)) && wf_ty t false = true ->
  rt_ok e t (top_name t) v -> encode_as t v = Some nodes ->
  exists k, nodes = [Elem (top_name t) k] /\ unmarshal e t (Elem (top_name t) k) (zero t) = Some v.
Proof.
  intros H Hrt E. apply andb_true_iff in H as [H1 H2].
  assert (Hn : top_name t <> []) by (destruct (top_name t); [discriminate | congruence]).
  destruct (top_marshal t v Hn) as [E1 E2]. destruct (E2 _ E) as [k ->]. exists k. split; [reflexivity|].
  rewrite E1 in E. destruct round_trip_all as [R _]. destruct (R t) as [R' _].
  destruct (R' e false (top_name t) false v _ H2 Hrt E) as [_ R2].
  cbn [map run_all] in R2. destruct (unmarshal e t (Elem (top_name t) k) (zero t)); [|discriminate].
  exact R2.
Qed.

Ltac in_all H := repeat match type of H with _ /\ _ => let H1 := fresh "HE" in destruct H as [H1 H] end.

Lemma profile_enc r : enc_ok ProfileResponse_ty (ProfileResponse_to r) <->
  Forall (fun s => message_set_name (MessageSet_Name s)) (ProfileResponse_MessageSetList r).
Proof.
  transitivity (enc_ok (TMsgSets MessageSet_fields) (map MessageSet_to (ProfileResponse_MessageSetList r))).
  - unfold ProfileResponse_ty, ProfileResponse_fields, ProfileResponse_to.
    cbn [enc_ok enc_ok_flds fst snd]. split; [tauto|]. intros H.
    repeat match goal with |- _ /\ _ => split end; auto.
    + apply (proj1 no_msgsets_enc_all). reflexivity.
    + apply Forall_forall. intros x _. apply (proj1 no_msgsets_enc_all). reflexivity.
  - cbn [enc_ok]. rewrite Forall_map. apply Forall_iff. intros s.
    rewrite <- good_set_name_iff. cbn [MessageSet_to fst snd]. split; [tauto|]. intros H. split; [exact H|].
    apply no_msgsets_enc_all. reflexivity.
Qed.

Lemma encode_message_iff m : some (encode_message m) <-> encodable m.
Proof.
  destruct m; cbn [encode_message encodable]; unfold encode_as;
    try (split; [auto|intros _; apply some_ex; apply marshal_some; vm_compute; reflexivity]).
  rewrite <- profile_enc. apply some_marshal_all. vm_compute. reflexivity.
Qed.

Lemma encode_message_name m nodes : encode_message m = Some nodes ->
  exists k, nodes = [Elem (message_name m) k].
Proof.
  destruct m; cbn [encode_message message_name]; intros E;
    match type of E with encode_as ?t ?v = _ =>
      refine (proj2 (top_marshal t v _) nodes E); vm_compute; discriminate end.
Qed.

Lemma rt_flds_step e ps nm om t fs v :
  enums_ok t && names_ok t nm = true ->
  (every_field (leaf_ok e) fs (snd v) -> rt_flds e fs (snd v)) ->
  every_field (leaf_ok e) (FCons ps nm om t fs) v -> rt_flds e (FCons ps nm om t fs) v.
Proof.
  intros H1 H2 [H3 H4]. cbn [rt_flds]. split; [apply representable_rt; assumption | auto].
Qed.

Ltac rt_step := apply rt_flds_step; [vm_compute; reflexivity|].

Lemma inv401k_rt e v : Inv401K_LoanInfo v = [] -> every (leaf_ok e) Inv401K_ty (Inv401K_to v) ->
  rt_ok e Inv401K_ty (bs "INV401K") (Inv401K_to v).
Proof.
  intros Hl. unfold Inv401K_ty. cbn [every rt_ok]. intros H. split; [right; reflexivity|]. revert H.
  unfold Inv401K_to. rewrite Hl. generalize (Inv401K_EmployerName v). unfold Inv401K_fields. intros n.
  do 16 rt_step. cbn [snd map].
  intros [_ H]. split; [constructor|]. revert H. cbn [snd].
  do 3 rt_step. intros _. exact I.
Qed.

Lemma invstmt_rt e r : every (leaf_ok e) InvStatementResponse_ty (InvStatementResponse_to r) -> no_loans r ->
  rt_ok e InvStatementResponse_ty (bs "INVSTMTTRNRS") (InvStatementResponse_to r).
Proof.
  intros H Hno. unfold InvStatementResponse_ty in *. cbn [every rt_ok] in *.
  split; [right; reflexivity|]. revert H. unfold InvStatementResponse_to, InvStatementResponse_fields.
  do 11 rt_step. cbn [snd].
  intros [H1 H2]. cbn [fst snd] in *. split.
  - cbn [fst]. destruct (InvStatementResponse_Inv401K r) as [k|] eqn:E; [|exact I].
    cbn [option_map every rt_ok] in *. apply inv401k_rt; auto.
  - revert H2. cbn [snd]. rt_step. intros _. exact I.
Qed.

Lemma message_rt e m nodes : message_representable e m -> snd (message_type m) = Rs ->
  encode_message m = Some nodes ->
  exists k, nodes = [Elem (message_name m) k] /\
            decode_message e (fst (message_type m)) (Elem (message_name m) k) = Some m.
Proof.
  intros Hr Hd E.
  destruct m; try discriminate Hd; clear Hd; cbn [encode_message message_name message_type fst] in *;
  match goal with
  | |- context [MsgSecurityList _] => pose proof (SecurityList_iso r) as Hiso
  | |- context [MsgAcctInfoResponse _] => pose proof (AcctInfoResponse_iso r) as Hiso
  | |- context [MsgStatementResponse _] => pose proof (StatementResponse_iso r) as Hiso
  | |- context [MsgCCStatementResponse _] => pose proof (CCStatementResponse_iso r) as Hiso
  | |- context [MsgInvStatementResponse _] => pose proof (InvStatementResponse_iso r) as Hiso
  | |- context [MsgSecListResponse _] => pose proof (SecListResponse_iso r) as Hiso
  | |- context [MsgProfileResponse _] => pose proof (ProfileResponse_iso r) as Hiso
  end;
  (match type of E with encode_as ?t ?v = _ =>
    let Hw := fresh in
    assert (Hw : negb (null (top_name t)) && wf_ty t false = true) by (vm_compute; reflexivity);
    let Hrt := fresh in
    assert (Hrt : rt_ok e t (top_name t) v)
      by (cbn [message_representable] in Hr;
          first [apply representable_rt; [vm_compute; reflexivity | exact Hr]
                | apply invstmt_rt; apply Hr]);
    let k := fresh "k" in
    destruct (top_round e t v nodes Hw Hrt E) as (k & -> & Hu); clear Hw Hrt E;
    exists k; split; [reflexivity|]
  end);
  unfold decode_message; rewrite ?str_eqb_refl;
  try (match goal with |- context [str_eqb (bs "SECLIST") (bs "SECLISTTRNRS")] =>
         change (str_eqb (bs "SECLIST") (bs "SECLISTTRNRS")) with false end; cbv iota);
  (etransitivity; [apply f_equal; exact Hu|]); cbn [option_map]; rewrite Hiso; reflexivity.
Qed.
