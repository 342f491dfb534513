(** Decoding does not depend on blank text between elements, nor on the white
    space around the text of a leaf. *)
From Coq Require Import QArith Lia Bool List.
From Verif Require Import GoStr GoStrFacts SpecStr GoNum GoRat GoTime Types Enums Codec CodecFacts DateFacts.
Close Scope Q_scope.

(** Two trees that differ only in white space: blank text may come and go, and
    the text directly inside an element may have other white space around it. *)
Inductive sim : node -> node -> Prop :=
| sim_text s s' : blank s = false -> blank s' = false -> sim (Text s) (Text s')
| sim_misc : sim Misc Misc
| sim_elem nm k k' :
    trim_space (text_of k) = trim_space (text_of k') ->
    Forall2 sim (solid k) (solid k') ->
    sim (Elem nm k) (Elem nm k').

(** ** Leaves *)

Lemma ws_run_no_bracket w : ws_run w -> ~ In "]"%char w.
Proof. intros H. apply (ws_not_bracket w "]" H). auto. Qed.

Lemma in_split_first (c : ascii) t : In c t -> exists a b, t = a ++ c :: b /\ ~ In c a.
Proof.
  induction t as [|d t IH]; [intros []|]. intros Hin.
  destruct (Ascii.eqb_spec d c) as [->|Hne].
  - exists [], t. split; auto.
  - destruct Hin as [|Hin]; [congruence|]. destruct (IH Hin) as (a & b & -> & Hn).
    exists (d :: a), b. split; auto. intros [H|H]; auto.
Qed.

Lemma date_unmarshal_trim e s : date_unmarshal e s = date_unmarshal e (trim_space s).
Proof.
  destruct (trim_space_sound s) as [l [r [Hl [Hr [Hs Ht]]]]].
  set (t := trim_space s) in *. clearbody t. subst s.
  assert (H : trim_space (match split2 (bs "]") (l ++ t ++ r) with Some (v, _) => v | None => l ++ t ++ r end)
            = trim_space (match split2 (bs "]") t with Some (v, _) => v | None => t end)).
  { change (bs "]") with ["]"%char]. destruct (split2 ["]"%char] t) as [[v w]|] eqn:E.
    - apply split2_some_char in E as [-> Hn].
      rewrite <- app_assoc. rewrite (app_assoc l v). cbn [app].
      rewrite split2_char.
      + rewrite <- (app_nil_r (l ++ v)), <- app_assoc. apply trim_space_around; [auto | constructor].
      + intros Hin. apply in_app_or in Hin as [Hin|Hin]; auto. apply (ws_run_no_bracket l); auto.
    - rewrite split2_none; [apply trim_space_around; auto|].
      intros Hin. apply in_app_or in Hin as [Hin|Hin]; [apply (ws_run_no_bracket l); auto|].
      apply in_app_or in Hin as [Hin|Hin]; [|apply (ws_run_no_bracket r); auto].
      destruct (in_split_first _ _ Hin) as (a & b & -> & Hn).
      rewrite split2_char in E by auto. discriminate. }
  unfold date_unmarshal. cbv zeta. rewrite H. reflexivity.
Qed.

Lemma leaf_unmarshal_trim e l s s' :
  trim_space s = trim_space s' -> leaf_unmarshal e l s = leaf_unmarshal e l s'.
Proof.
  intros H. destruct l; cbn [leaf_unmarshal];
    unfold int_unmarshal, amount_unmarshal, string_unmarshal, boolean_unmarshal, uid_unmarshal,
           curr_unmarshal, enum_unmarshal, enum_from_string; rewrite ?H; try reflexivity.
  rewrite date_unmarshal_trim, H, <- date_unmarshal_trim. reflexivity.
Qed.

(** ** Trees *)

Lemma node_ind' (P : node -> Prop) :
  (forall nm k, Forall P k -> P (Elem nm k)) -> (forall s, P (Text s)) -> P Misc ->
  forall n, P n.
Proof.
  intros He Ht Hm. fix IH 1. intros [nm k|s|]; [|apply Ht|apply Hm].
  apply He. induction k as [|n k IHk]; constructor; auto.
Qed.

Definition same_decoders (a b : decoders) : Prop :=
  (forall t v, d_value a t v = d_value b t v) /\
  (forall fs ps v, d_walk a fs ps v = d_walk b fs ps v) /\
  (forall fs, d_msgset a fs = d_msgset b fs).

Definition solidb (n : node) : bool := match n with Text s => negb (blank s) | _ => true end.

Lemma run_all_solid {A} (f : node -> A -> option A) kids :
  (forall s v, blank s = true -> f (Text s) v = Some v) ->
  forall v, run_all (map f kids) v = run_all (map f (solid kids)) v.
Proof.
  intros Hf. induction kids as [|n kids IH]; intros v; [reflexivity|].
  unfold solid. cbn [filter map run_all]. fold (solid kids). fold (solidb n).
  destruct (solidb n) eqn:E; cbn [map run_all].
  - destruct (f n v); cbn [bind]; auto.
  - destruct n as [|s|]; try discriminate. cbn in E. apply negb_false_iff in E.
    rewrite Hf by auto. cbn [bind]. apply IH.
Qed.

Lemma run_all_ext {A} (f g : list (A -> option A)) :
  Forall2 (fun a b => forall v, a v = b v) f g -> forall v, run_all f v = run_all g v.
Proof.
  induction 1 as [|a b f g H _ IH]; intros v; cbn [run_all]; auto.
  rewrite H. destruct (b v); cbn [bind]; auto.
Qed.

Lemma match_fields_ext fs ps nm (k k' : decoder) v :
  (forall t v, k t v = k' t v) -> match_fields fs ps nm k v = match_fields fs ps nm k' v.
Proof.
  intros H. induction fs as [|qs n om t fs IH]; [reflexivity|].
  cbn [match_fields]. rewrite H, IH. reflexivity.
Qed.

Lemma match_custom_ext fs nm (k k' : decoder) v :
  (forall t v, k t v = k' t v) -> match_custom fs nm k v = match_custom fs nm k' v.
Proof.
  intros H. induction fs as [|qs n om t fs IH]; [reflexivity|].
  cbn [match_custom]. rewrite H, IH. reflexivity.
Qed.

Lemma match_alts_ext a nm (k k' : decoder) :
  (forall t v, k t v = k' t v) -> match_alts a nm k = match_alts a nm k'.
Proof.
  intros H. induction a as [|rd wr t a IH]; [reflexivity|].
  cbn [match_alts]. rewrite H, IH. reflexivity.
Qed.

Lemma steps_solid {A} e (f : node -> str -> A -> option A) kids v :
  steps e f kids v = steps e f (solid kids) v.
Proof.
  unfold steps. apply (run_all_solid (fun n => token_step n (f n))).
  intros s w H. cbn [token_step]. rewrite H. reflexivity.
Qed.

Lemma walks_solid e FS s kids v : walks e FS s kids v = walks e FS s (solid kids) v.
Proof.
  unfold walks. apply (run_all_solid (fun n => d_walk (decode e n) FS s)). reflexivity.
Qed.

Lemma filter_map_fst {A B} (p : A -> bool) (g : A -> B) l :
  filter (fun d => p (fst d)) (map (fun k => (k, g k)) l) = map (fun k => (k, g k)) (filter p l).
Proof.
  induction l as [|x l IH]; [reflexivity|]. cbn [map filter fst].
  destruct (p x); cbn [map]; rewrite IH; reflexivity.
Qed.

Lemma msgset_elem e nm kids fs :
  d_msgset (decode e (Elem nm kids)) fs =
  match solid kids with
  | [Elem vname k] =>
      option_map (fun r => (vname, snd r))
        (unmarshal e (TStruct [] (FCons [] (bs "Name") false (TLeaf LString) fs)) (Elem vname k)
           ([], zero_flds fs))
  | _ => None
  end.
Proof.
  cbn [decode d_msgset].
  rewrite (filter_map_fst (fun n => match n with Text s => negb (blank s) | _ => true end) (decode e) kids).
  fold (solid kids). destruct (solid kids) as [|[vn k|s|] [|n2 r]]; reflexivity.
Qed.

Lemma Forall2_in_l {A B} (R : A -> B -> Prop) (Q : A -> Prop) l l' :
  Forall2 R l l' -> Forall Q l -> Forall2 (fun a b => R a b /\ Q a) l l'.
Proof.
  induction 1 as [|a b l l' H _ IH]; intros HQ; constructor; inversion HQ; auto.
Qed.

Lemma Forall2_map_ext {A B} (R : A -> A -> Prop) (f g : A -> B -> option B) l l' :
  (forall a b, R a b -> forall v, f a v = g b v) -> Forall2 R l l' ->
  forall v, run_all (map f l) v = run_all (map g l') v.
Proof.
  intros H HF. apply run_all_ext. induction HF; constructor; auto.
Qed.

Theorem sim_decode e n : forall n', sim n n' -> same_decoders (decode e n) (decode e n').
Proof.
  induction n as [nm k IH|s|] using node_ind'; intros n' Hs; inversion Hs as [s1 s2| |nm1 k1 k' Ht Hk]; subst.
  - assert (Hk' : Forall2 (fun a b => sim a b /\ same_decoders (decode e a) (decode e b)) (solid k) (solid k')).
    { assert (HQ : Forall (fun n => forall n', sim n n' -> same_decoders (decode e n) (decode e n')) (solid k)).
      { apply Forall_forall. intros x Hx. unfold solid in Hx. apply filter_In in Hx as [Hx _].
        rewrite Forall_forall in IH. apply IH; auto. }
      pose proof (Forall2_in_l _ _ _ _ Hk HQ) as H. clear - H.
      induction H as [|a b l l' [H1 H2] _ IH]; constructor; auto. }
    clear IH Hk.
    assert (Hw : forall fs ps v, walks e fs ps k v = walks e fs ps k' v).
    { intros fs ps v. rewrite walks_solid, (walks_solid e fs ps k').
      unfold walks. refine (Forall2_map_ext _ _ _ _ _ _ Hk' v).
      intros a b [_ (_ & H & _)] w. apply H. }
    assert (Hst : forall A (f : node -> str -> A -> option A) v,
      (forall a b nm1 w, same_decoders (decode e a) (decode e b) -> f a nm1 w = f b nm1 w) ->
      steps e f k v = steps e f k' v).
    { intros A f v Hf. rewrite steps_solid, (steps_solid e f k').
      unfold steps. refine (Forall2_map_ext _ _ _ _ _ _ Hk' v).
      intros a b [Hab Hd] w. inversion Hab; subst; cbn [token_step]; auto.
      - rewrite H, H0. reflexivity. }
    assert (Hv : forall t v, d_value (decode e (Elem nm k)) t v = d_value (decode e (Elem nm k')) t v).
    { apply (ty_mind (fun t => forall v, d_value (decode e (Elem nm k)) t v = d_value (decode e (Elem nm k')) t v)
               (fun _ => True)
               (fun a => match_alts a nm (d_value (decode e (Elem nm k))) = match_alts a nm (d_value (decode e (Elem nm k')))));
        try (intros; exact I).
      - intros l v. change (leaf_unmarshal e l (text_of k) = leaf_unmarshal e l (text_of k')).
        apply leaf_unmarshal_trim; auto.
      - intros x fs _ v. fold (unmarshal e (TStruct x fs) (Elem nm k) v).
        fold (unmarshal e (TStruct x fs) (Elem nm k') v). rewrite !unmarshal_struct, Hw. reflexivity.
      - intros t IHt v. fold (unmarshal e (TPtr t) (Elem nm k) v).
        fold (unmarshal e (TPtr t) (Elem nm k') v). rewrite !unmarshal_ptr. unfold unmarshal. rewrite IHt. reflexivity.
      - intros t IHt v. fold (unmarshal e (TSlice t) (Elem nm k) v).
        fold (unmarshal e (TSlice t) (Elem nm k') v). rewrite !unmarshal_slice. unfold unmarshal. rewrite IHt. reflexivity.
      - intros x fs _ v. fold (unmarshal e (TCustom x fs) (Elem nm k) v).
        fold (unmarshal e (TCustom x fs) (Elem nm k') v). rewrite !unmarshal_custom.
        apply Hst. intros a b nm1 w H. apply match_custom_ext. apply H.
      - intros a IHa v. fold (unmarshal e (TAlts a) (Elem nm k) v).
        fold (unmarshal e (TAlts a) (Elem nm k') v). rewrite !unmarshal_alts, IHa. reflexivity.
      - intros x a _ v. fold (unmarshal e (TAltList x a) (Elem nm k) v).
        fold (unmarshal e (TAltList x a) (Elem nm k') v). rewrite !unmarshal_altlist.
        apply Hst. intros a1 b nm1 w H. unfold alt_step. f_equal. apply match_alts_ext. apply H.
      - intros fs _ v. fold (unmarshal e (TMsgSets fs) (Elem nm k) v).
        fold (unmarshal e (TMsgSets fs) (Elem nm k') v). rewrite !unmarshal_msgsets.
        apply Hst. intros a1 b nm1 w H. unfold msgset_step. f_equal. apply H.
      - reflexivity.
      - intros rd wr t IHt a IHa. cbn [match_alts]. rewrite IHt, IHa. reflexivity. }
    split; [exact Hv|]. split.
    + intros fs ps v. rewrite !walk_elem. rewrite (match_fields_ext _ _ _ _ _ _ Hv), Hw. reflexivity.
    + intros fs. rewrite !msgset_elem.
      destruct Hk' as [|a b l l' [Hab Hd] Hr]; [reflexivity|].
      destruct Hab; try (destruct Hr; reflexivity).
      destruct Hr; [|reflexivity]. unfold unmarshal. destruct Hd as [Hd _]. rewrite Hd. reflexivity.
  - repeat split.
  - repeat split.
Qed.

Corollary sim_unmarshal e t n n' v : sim n n' -> unmarshal e t n v = unmarshal e t n' v.
Proof. intros H. apply (sim_decode e n n' H). Qed.
