(** What is encoded decodes to the value with every leaf as it is read. *)
From Coq Require Import QArith Lia Bool.
From Coq Require Import List.
Close Scope Q_scope.
From Verif Require Import GoStr GoStrFacts GoNum GoRat GoTime Types Enums Codec CodecFacts SpecAgain.

Fixpoint at_ok (e : env) (t : ty) (nm : str) : interp t -> Prop :=
  match t return interp t -> Prop with
  | TLeaf l => fun v => readable e l v
  | TStruct x fs => fun v => (x = [] \/ x = nm) /\ at_flds e fs v
  | TPtr t => fun v => match v with None => True | Some v => at_ok e t nm v end
  | TSlice t => fun v => Forall (at_ok e t nm) v
  | TCustom x fs => fun v => x = nm /\ at_flds e fs v
  | TAlts a => fun v => Forall (at_alt e a) v
  | TAltList x a => fun v => x = nm /\ Forall (at_alt e a) v
  | TMsgSets fs => fun v => nm = bs "MSGSETLIST" /\ Forall (fun m => at_flds e fs (snd m)) v
  end
with at_flds (e : env) (fs : flds) : interp_flds fs -> Prop :=
  match fs return interp_flds fs -> Prop with
  | FNil => fun _ => True
  | FCons _ nm _ t fs' => fun v => at_ok e t nm (fst v) /\ at_flds e fs' (snd v)
  end
with at_alt (e : env) (a : alts) : interp_alts a -> Prop :=
  match a return interp_alts a -> Prop with
  | ANil => fun _ => True
  | ACons rd _ t a' => fun v =>
      match v with
      | inl x => at_ok e t rd x
      | inr y => at_alt e a' y
      end
  end.

Lemma again_empty e l v : leaf_empty l v = true -> again e l v = leaf_zero l.
Proof.
  unfold again, back. destruct l; cbn [leaf_empty leaf_zero]; intros He; try discriminate;
    try (destruct v; [|discriminate He]; vm_compute; reflexivity).
  - apply Z.eqb_eq in He as ->. vm_compute. reflexivity.
  - destruct v; [discriminate|]. reflexivity.
  - apply N.eqb_eq in He as ->. cbn [leaf_marshal]. unfold enum_marshal. destruct (enum_valid t 0); reflexivity.
Qed.

Definition A_ty (t : ty) : Prop := forall e force nm om v nodes,
  wf_ty t om = true -> at_ok e t nm v -> marshal t force nm om v = Some nodes ->
  Forall (named nm) nodes /\ run_all (map (fun n => unmarshal e t n) nodes) (zero t) = Some (changed (again e) t v).

Definition A_struct (fs : flds) : Prop := forall e FS put s v c,
  embeds FS fs put -> paths_ok (sigs fs) = true -> wf_flds fs = true ->
  at_flds e fs v -> struct_cmds fs s v = Some c ->
  levels e FS s (build c) (put (zero_flds fs)) = Some (put (changed_flds (again e) fs v)).

Definition A_cust (fs : flds) : Prop := forall e FS put v kids,
  cust_embeds FS fs put -> NoDup (all_cust_names fs) -> wf_cust fs = true ->
  at_flds e fs v -> custom_kids fs v = Some kids ->
  steps e (cust_step e FS) kids (put (zero_flds fs)) = Some (put (changed_flds (again e) fs v)).

Definition A_alts (a : alts) : Prop := forall e v nodes,
  wf_alts a = true -> NoDup (alt_names a) -> at_alt e a v -> marshal_alt a v = Some nodes ->
  exists nm k, nodes = [Elem nm k] /\ In nm (alt_names a) /\
    match_alts a nm (d_value (decode e (Elem nm k))) = Some (changed_alts (again e) a v).

Lemma again_content e fs v c :
  A_struct fs -> paths_ok (sigs fs) = true -> wf_flds fs = true ->
  at_flds e fs v -> struct_cmds fs [] v = Some c ->
  walks e fs [] (content c) (zero_flds fs) = Some (changed_flds (again e) fs v).
Proof.
  intros HP Hok Hwf Hrt Hc.
  pose proof (struct_cmds_length _ _ _ _ Hc) as Hlen.
  specialize (HP e fs (fun v => v) [] v c (embeds_refl fs) Hok Hwf Hrt Hc).
  unfold content. destruct (build c) as [|f [|g r]]; try discriminate Hlen.
  simpl in HP |- *. unfold walks in *. destruct (run_all _ _); auto.
Qed.

Lemma slice_again e t nm om force l nodes :
  A_ty t -> wf_ty t om = true -> single t om = true -> Forall (at_ok e t nm) l ->
  concat_opt (marshal t force nm om) l = Some nodes ->
  Forall (named nm) nodes /\
  forall old, run_all (map (fun n => unmarshal e (TSlice t) n) nodes) old = Some (old ++ map (changed (again e) t) l).
Proof.
  intros HP Hwf Hs. revert nodes. induction l as [|x l IH]; intros nodes Hrt H; simpl in H.
  - injection H as <-. split; [constructor|]. intros old. rewrite app_nil_r. reflexivity.
  - inv_bind H. inv_bind H. injection H as <-.
    inversion Hrt as [|? ? Hx Hl]; subst.
    destruct (single_one _ _ _ _ _ _ Hs E) as [n ->].
    destruct (HP _ _ _ _ _ _ Hwf Hx E) as [Hn Hr].
    destruct (IH _ Hl eq_refl) as [IHn IHr].
    split; [apply Forall_app; auto|].
    intros old. rewrite map_app, run_all_app.
    inversion Hn as [|? ? [k ->] _]; subst.
    cbn [map run_all] in Hr |- *. rewrite unmarshal_slice.
    destruct (unmarshal e t (Elem nm k) (zero t)) as [y|]; [|discriminate].
    cbn [bind] in Hr. injection Hr as ->. cbn [option_map bind].
    rewrite IHr, <- app_assoc. reflexivity.
Qed.

Lemma alts_again e a l nodes :
  A_alts a -> wf_alts a = true -> NoDup (alt_names a) -> Forall (at_alt e a) l ->
  concat_opt (marshal_alt a) l = Some nodes ->
  Forall (fun n => exists nm k, n = Elem nm k /\ In nm (alt_names a)) nodes /\
  (forall old, steps e (alt_step e a) nodes old = Some (old ++ map (changed_alts (again e) a) l)) /\
  forall old, run_all (map (fun n => unmarshal e (TAlts a) n) nodes) old = Some (old ++ map (changed_alts (again e) a) l).
Proof.
  intros HP Hwf Hs. revert nodes. induction l as [|x l IH]; intros nodes Hrt H; simpl in H.
  - injection H as <-. split; [constructor|]. split; intros old; rewrite app_nil_r; reflexivity.
  - inv_bind H. inv_bind H. injection H as <-.
    inversion Hrt as [|? ? Hx Hl]; subst.
    destruct (HP _ _ _ Hwf Hs Hx E) as (nm & k & -> & Hin & Hr).
    destruct (IH _ Hl eq_refl) as (IHn & IHr & IHu).
    split; [constructor; eauto|]. split; intros old.
    + change ([Elem nm k] ++ ?w) with (Elem nm k :: w). unfold steps. cbn [map run_all token_step].
      fold (steps e (alt_step e a) l1). unfold alt_step at 1. rewrite Hr. cbn [option_map bind].
      rewrite IHr, <- app_assoc. reflexivity.
    + cbn [app map run_all]. rewrite unmarshal_alts, Hr. cbn [option_map bind].
      rewrite IHu, <- app_assoc. reflexivity.
Qed.

Lemma msgset_again e fs l nodes :
  A_struct fs -> paths_ok (sigs (FCons [] (bs "Name") false (TLeaf LString) fs)) = true ->
  wf_flds fs = true -> Forall (fun m => at_flds e fs (snd m)) l ->
  concat_opt (fun m : str * interp_flds fs =>
               let '(nm, r) := m in
               if not_v1 nm || null (trim_v1 nm) then None
               else
                 c <- struct_cmds fs [] r ;;
                 Some [Elem (trim_v1 nm)
                         [Elem nm (Elem (bs "Name") (text_kids nm) :: content c)]]) l = Some nodes ->
  forall old, steps e (msgset_step e fs) nodes old = Some (old ++ map (fun x : str * interp_flds fs => (fst x, changed_flds (again e) fs (snd x))) l).
Proof.
  intros HP Hok Hwf. revert nodes. induction l as [|[nm r] l IH]; intros nodes Hrt H; cbn [concat_opt] in H.
  - injection H as <-. intros old. rewrite app_nil_r. reflexivity.
  - destruct (not_v1 nm || null (trim_v1 nm)); [discriminate|].
    inv_bind H. inv_bind E. injection E as <-. inv_bind H. injection H as <-.
    inversion Hrt as [|? ? Hx Hl]; subst. specialize (IH _ Hl eq_refl).
    intros old. unfold steps. cbn [map run_all token_step].
    fold (steps e (msgset_step e fs) l0).
    assert (Hd : d_msgset (decode e (Elem (trim_v1 nm)
        [Elem nm (Elem (bs "Name") (text_kids nm) :: content l1)])) fs = Some (nm, changed_flds (again e) fs r)).
    { cbn [decode d_msgset map filter fst].
      change (mkDecoders _ _ _) with (decode e (Elem nm (Elem (bs "Name") (text_kids nm) :: content l1))).
      change (d_value ?d ?t ?v) with (unmarshal e t (Elem nm (Elem (bs "Name") (text_kids nm) :: content l1)) v).
      rewrite unmarshal_struct. cbn [null negb andb].
      rewrite walks_cons, walk_elem.
      assert (Hm : forall k v, match_fields (FCons [] (bs "Name") false (TLeaf LString) fs) [] (bs "Name") k v
                = Hit (option_map (fun x => (x, snd v)) (k (TLeaf LString) (fst v)))).
      { intros. cbn [match_fields strip_prefix]. rewrite str_eqb_refl. reflexivity. }
      rewrite Hm. cbn [fst snd].
      change (d_value (decode e (Elem (bs "Name") (text_kids nm))) (TLeaf LString) [])
        with (Some (trim_space (text_of (text_kids nm)))).
      cbn [option_map bind].
      pose proof (struct_cmds_length _ _ _ _ E0) as Hlen.
      pose proof (embeds_step (FCons [] (bs "Name") false (TLeaf LString) fs)
                    [] (bs "Name") false (TLeaf LString) fs (fun v => v) (trim_space (text_of (text_kids nm))) (embeds_refl _) Hok) as He.
      apply paths_ok_cons in Hok as [_ Hok].
      specialize (HP e _ _ [] _ _ He Hok Hwf Hx E0).
      unfold content. destruct (build l1) as [|f [|g w]]; try discriminate Hlen.
      cbn [levels hd] in HP |- *.
      match type of HP with bind ?w _ = _ => change (option_map (fun r0 => (nm, snd r0)) w = Some (nm, changed_flds (again e) fs r)); destruct w as [[u1 u2]|]; [|discriminate] end.
      cbn [bind snd] in HP. injection HP as -> ->. reflexivity. }
    unfold msgset_step at 1.
    match goal with |- context [d_msgset (decode e ?x) fs] =>
      replace (d_msgset (decode e x) fs) with (Some (nm, changed_flds (again e) fs r)) by (symmetry; exact Hd) end. cbn [option_map bind].
    rewrite IH, <- app_assoc. reflexivity.
Qed.

Definition A_ty' (t : ty) : Prop :=
  A_ty t /\ match t with TAlts a => A_alts a | _ => True end.

Lemma NoDup_app_l {A} (a b : list A) : NoDup (a ++ b) -> NoDup a.
Proof.
  induction a as [|x a IH]; simpl; [constructor|]. intros H; inversion H; subst.
  constructor; auto. intros Hin. apply H2. apply in_or_app; auto.
Qed.

Lemma again_all :
  (forall t, A_ty' t) /\ (forall fs, A_struct fs /\ A_cust fs) /\ (forall a, A_alts a).
Proof.
  apply (schema_ind A_ty' (fun fs => A_struct fs /\ A_cust fs) A_alts).
  - (* TLeaf *)
    intros l. split; [|exact I]. intros e force nm om v nodes _ Hrt H. cbn [marshal] in H. cbn [at_ok] in Hrt.
    destruct (om && leaf_empty l v) eqn:E.
    + apply andb_true_iff in E as [_ E]. injection H as <-. split; [constructor|]. cbn [map run_all zero changed]. f_equal. symmetry. apply again_empty, E.
    + destruct Hrt as [w Hw]. cbn [changed]. unfold again. rewrite Hw. unfold back in Hw.
      destruct (leaf_marshal l v) as [[s|]|]; [| |discriminate]; cbn [bind] in H; injection H as <-.
      * split; [constructor; [exists (text_kids s); auto | constructor]|].
        cbn [map run_all]. rewrite unmarshal_leaf, text_of_text_kids, Hw. reflexivity.
      * split; [constructor | exact Hw].
  - (* TStruct *)
    intros x fs [HP _]. split; [|exact I]. intros e force nm om v nodes Hwf [Hx Hrt] H. cbn [marshal] in H.
    inv_bind H. injection H as <-. cbn [wf_ty] in Hwf. apply andb_true_iff in Hwf as [Hok Hwf].
    assert (Hnm : (if force || null x then nm else x) = nm).
    { destruct force; auto. destruct Hx as [-> | ->]; auto. destruct nm; auto. }
    rewrite Hnm. split; [constructor; [eexists; eauto | constructor]|].
    cbn [map run_all]. rewrite unmarshal_struct.
    assert (Hc : negb (null x) && negb (str_eqb x nm) = false).
    { destruct Hx as [-> | ->]; auto. rewrite str_eqb_refl, andb_false_r. auto. }
    rewrite Hc. cbn [zero]. rewrite (again_content _ _ _ _ HP Hok Hwf Hrt E). reflexivity.
  - (* TPtr *)
    intros t [IH _]. split; [|exact I]. intros e force nm om v nodes Hwf Hrt H. cbn [wf_ty] in Hwf.
    apply andb_true_iff in Hwf as [Hs Hwf].
    cbn [marshal] in H. destruct v as [v|].
    + destruct (IH _ _ _ _ _ _ Hwf Hrt H) as [Hn Hr].
      destruct (single_one _ _ _ _ _ _ Hs H) as [n ->]. split; auto.
      inversion Hn as [|? ? [k ->] _]; subst.
      cbn [map run_all] in Hr |- *. rewrite unmarshal_ptr. cbn [zero].
      destruct (unmarshal e t (Elem nm k) (zero t)); [|discriminate].
      cbn [bind] in Hr. injection Hr as ->. reflexivity.
    + injection H as <-. split; [constructor | reflexivity].
  - (* TSlice *)
    intros t [IH _]. split; [|exact I]. intros e force nm om v nodes Hwf Hrt H. cbn [wf_ty] in Hwf.
    apply andb_true_iff in Hwf as [Hs Hwf]. cbn [marshal] in H.
    destruct (om && null v) eqn:E.
    + apply andb_true_iff in E as [_ E]. destruct v; [|discriminate]. injection H as <-.
      split; [constructor | reflexivity].
    + destruct (slice_again _ _ _ _ _ _ _ IH Hwf Hs Hrt H) as [H1 H2]. split; auto.
      apply (H2 []).
  - (* TCustom *)
    intros x fs [_ HP]. split; [|exact I]. intros e force nm om v nodes Hwf [-> Hrt] H. cbn [marshal] in H.
    inv_bind H. injection H as <-. cbn [wf_ty] in Hwf. apply andb_true_iff in Hwf as [Hok Hwf].
    split; [constructor; [eexists; eauto | constructor]|].
    cbn [map run_all]. rewrite unmarshal_custom. cbn [zero].
    rewrite (HP e fs (fun v => v) v l (cust_embeds_refl fs) (no_dup_spec _ Hok) Hwf Hrt E).
    reflexivity.
  - (* TAlts *)
    intros a HP. split; [|exact HP]. intros e force nm om v nodes Hwf. discriminate.
  - (* TAltList *)
    intros x a HP. split; [|exact I]. intros e force nm om v nodes Hwf [-> Hrt] H. cbn [marshal] in H.
    cbn [wf_ty] in Hwf. apply andb_true_iff in Hwf as [Hok Hwf].
    destruct (om && null v) eqn:E.
    + apply andb_true_iff in E as [_ E]. destruct v; [|discriminate]. injection H as <-.
      split; [constructor | reflexivity].
    + inv_bind H. injection H as <-.
      destruct (alts_again _ _ _ _ HP Hwf (no_dup_spec _ Hok) Hrt E0) as (_ & Hr & _).
      split; [constructor; [eexists; eauto | constructor]|].
      cbn [map run_all]. rewrite unmarshal_altlist. cbn [zero]. rewrite Hr. reflexivity.
  - (* TMsgSets *)
    intros fs [HP _]. split; [|exact I]. intros e force nm om v nodes Hwf [-> Hrt] H. cbn [marshal] in H.
    cbn [wf_ty] in Hwf. apply andb_true_iff in Hwf as [Hok Hwf].
    destruct (om && null v) eqn:E.
    + apply andb_true_iff in E as [_ E]. destruct v; [|discriminate]. injection H as <-.
      split; [constructor | reflexivity].
    + inv_bind H. injection H as <-.
      split; [constructor; [eexists; eauto | constructor]|].
      cbn [map run_all]. rewrite unmarshal_msgsets. cbn [zero].
      rewrite (msgset_again _ _ _ _ HP Hok Hwf Hrt E0). reflexivity.
  - (* FNil *)
    split.
    + intros e FS put s v c _ _ _ _ H. cbn [struct_cmds] in H. injection H as <-.
      rewrite <- (app_nil_r (repeat _ _)), levels_closes by lia.
      destruct v. reflexivity.
    + intros e FS put v kids _ _ _ _ H. cbn [custom_kids] in H. injection H as <-.
      destruct v. reflexivity.
  - (* FCons *)
    intros ps nm om t [IHt IHa] fs [IHs IHc]. split.
    + intros e FS put s v c He Hok Hwf [Hrt1 Hrt2] H. destruct v as [x v]. cbn [fst snd] in *.
      cbn [struct_cmds fst snd] in H.
      inv_bind H. inv_bind H. injection H as <-. rename l into nodes, l0 into rest.
      cbn [wf_flds] in Hwf. apply andb_true_iff in Hwf as [Hwft Hwf].
      destruct (IHt _ _ _ _ _ _ Hwft Hrt1 E) as [Hn Hr].
      destruct (common_prefix_spec s ps) as (Hf & Hk1 & Hk2).
      pose proof (embeds_step _ _ _ _ _ _ _ (changed (again e) t x) He Hok) as He'.
      pose proof (paths_ok_cons _ _ Hok) as [_ Hok'].
      pose proof (struct_cmds_length _ _ _ _ E0) as Hlen.
      specialize (IHs e FS _ _ _ _ He' Hok' Hwf Hrt2 E0).
      rewrite levels_closes by lia.
      replace (length s - (length s - common_prefix s ps)) with (common_prefix s ps) by lia.
      rewrite Hf. cbn [zero_flds].
      destruct (is_nil t x) eqn:En.
      * rewrite (is_nil_marshal _ _ _ _ _ _ En E) in *. cbn [map app run_all] in *.
        injection Hr as Hz. rewrite Hz. exact IHs.
      * rewrite (levels_opens e FS ps).
        -- rewrite levels_wholes by (intros Hb; rewrite Hb in Hlen; discriminate).
           assert (Hw : walks e FS ps nodes (put (zero t, zero_flds fs)) = Some (put (changed (again e) t x, zero_flds fs))).
           { clear - He Hn Hr. revert Hr. generalize (zero t). unfold walks.
             induction nodes as [|n nodes IH]; intros z Hr; cbn [map run_all] in Hr |- *.
             - congruence.
             - inversion Hn as [|? ? [k ->] Hn']; subst.
               rewrite walk_elem, He.
               + cbn [match_fields fst snd]. rewrite strip_prefix_self, str_eqb_refl. cbn [found_map].
                 change (d_value (decode e (Elem nm k)) t z) with (unmarshal e t (Elem nm k) z).
                 destruct (unmarshal e t (Elem nm k) z) as [z'|]; [|discriminate].
                 cbn [option_map bind] in *. auto.
               + exists (ps ++ [nm]). split; [left; auto|].
                 apply prefixb_spec. exists []. rewrite app_nil_r; auto. }
           rewrite Hw. cbn [bind]. exact IHs.
        -- intros s' n l k ->. rewrite He.
           ++ cbn [match_fields]. rewrite strip_prefix_app, str_eqb_refl. reflexivity.
           ++ exists ((s' ++ n :: l) ++ [nm]). split; [left; auto|].
              apply prefixb_spec. exists (l ++ [nm]). rewrite <- !app_assoc. reflexivity.
        -- rewrite firstn_skipn. reflexivity.
        -- assert (Hb : length (build (map Whole nodes ++ rest)) = S (length ps)).
           { destruct (build rest) as [|f r] eqn:Er; [discriminate|].
             rewrite (build_wholes _ _ _ _ Er). rewrite <- Hlen. reflexivity. }
           rewrite Hb, skipn_length. lia.
    + intros e FS put v kids He Hnd Hwf [Hrt1 Hrt2] H. destruct v as [x v]. cbn [fst snd] in *.
      cbn [custom_kids fst snd] in H. inv_bind H. inv_bind H. injection H as <-.
      cbn [wf_cust] in Hwf. apply andb_true_iff in Hwf as [Hwft Hwf].
      pose proof (cust_embeds_step _ _ _ _ _ _ _ (changed (again e) t x) He Hnd) as He'.
      pose proof (NoDup_app_r _ _ Hnd) as Hnd'.
      specialize (IHc e FS _ _ _ He' Hnd' Hwf Hrt2 E0).
      rewrite steps_app. cbn [zero_flds].
      assert (Hrun : Forall (fun n => exists nm' k, n = Elem nm' k /\ In nm' (cust_names nm t)) l /\
                     run_all (map (fun n => unmarshal e t n) l) (zero t) = Some (changed (again e) t x)).
      { destruct t; try (destruct (IHt _ _ _ _ _ _ Hwft Hrt1 E) as [Hn Hr]; split; auto;
          eapply Forall_impl; [|exact Hn]; intros n [k ->]; exists nm, k; split; auto; left; auto).
        clear IHt. cbn [marshal] in E. cbn [at_ok] in Hrt1.
        destruct (alts_again _ _ _ _ IHa Hwft (NoDup_app_l _ _ Hnd) Hrt1 E) as (H1 & _ & H2).
        split; [exact H1 | apply (H2 [])]. }
      destruct Hrun as [Hn Hr].
      assert (Hw : steps e (cust_step e FS) l (put (zero t, zero_flds fs)) = Some (put (changed (again e) t x, zero_flds fs))).
      { clear - He Hn Hr. revert Hr. generalize (zero t). unfold steps.
        induction l as [|n nodes IH]; intros z Hr; cbn [map run_all] in Hr |- *.
        - congruence.
        - inversion Hn as [|? ? (nm' & k & -> & Hin) Hn']; subst.
          cbn [token_step]. unfold cust_step at 1. rewrite He by (cbn [all_cust_names]; apply in_or_app; auto).
          cbn [match_custom fst snd]. apply cust_names_spec in Hin. rewrite Hin.
          change (d_value (decode e (Elem nm' k)) t z) with (unmarshal e t (Elem nm' k) z).
          destruct (unmarshal e t (Elem nm' k) z) as [z'|]; [|discriminate].
          cbn [option_map bind] in *. auto. }
      rewrite Hw. exact IHc.
  - (* ANil *)
    intros e v. destruct v.
  - (* ACons *)
    intros rd wr t [IHt _] a IHa e v nodes Hwf Hnd Hrt H.
    cbn [wf_alts] in Hwf. apply andb_true_iff in Hwf as [Hwf Hwfa].
    apply andb_true_iff in Hwf as [Hwf Hwft]. apply andb_true_iff in Hwf as [Hrw Hs].
    apply str_eqb_eq in Hrw. subst wr.
    cbn [alt_names] in Hnd. inversion Hnd as [|? ? Hnin Hnd']; subst.
    cbn [marshal_alt] in H. cbn [at_alt] in Hrt. destruct v as [x|y].
    + destruct (IHt _ _ _ _ _ _ Hwft Hrt H) as [Hn Hr].
      destruct (single_one _ _ _ _ _ _ Hs H) as [n ->].
      inversion Hn as [|? ? [k ->] _]; subst. exists rd, k.
      split; auto. split; [left; auto|]. cbn [match_alts]. rewrite str_eqb_refl.
      cbn [map run_all] in Hr. unfold unmarshal in Hr.
      destruct (d_value _ t (zero t)); [|discriminate]. cbn [bind] in Hr. injection Hr as ->. reflexivity.
    + destruct (IHa _ _ _ Hwfa Hnd' Hrt H) as (nm & k & -> & Hin & Hm).
      exists nm, k. split; auto. split; [right; auto|]. cbn [match_alts].
      destruct (str_eqb rd nm) eqn:E; [apply str_eqb_eq in E; subst; contradiction|].
      rewrite Hm. reflexivity.
Qed.
