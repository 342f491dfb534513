(** Proofs about the lists with hand-written encoders and decoders. *)
From Coq Require Import QArith Lia.
From Coq Require Import List.
From Verif Require Import GoStr GoStrFacts GoTime Types Enums Records Accessors Messages Codec SpecCodec Schema Document
  SpecDocument SpecLists CodecFacts CodecSim DocumentFacts SetsFacts.
Close Scope Q_scope.
Import ListNotations.

(** ** One alternative *)

Fixpoint alt_wr (a : alts) : interp_alts a -> str :=
  match a return interp_alts a -> str with
  | ANil => fun v => match v with end
  | ACons _ wr _ a' => fun v => match v with inl _ => wr | inr y => alt_wr a' y end
  end.

Fixpoint alts_structs (a : alts) : bool :=
  match a with
  | ANil => true
  | ACons _ _ t a' => match t with TStruct _ _ => true | _ => false end && alts_structs a'
  end.

Lemma marshal_alt_name a : alts_structs a = true -> forall x ns, marshal_alt a x = Some ns ->
  exists k, ns = [Elem (alt_wr a x) k].
Proof.
  induction a as [|rd wr t a IH]; intros Hs x ns H; [destruct x|].
  cbn [alts_structs] in Hs. apply Bool.andb_true_iff in Hs as [Ht Hs].
  destruct x as [x|y]; cbn [marshal_alt alt_wr] in *.
  - destruct t; try discriminate Ht. cbn [marshal orb] in H.
    destruct (struct_cmds fs [] x); [|discriminate]. cbn [bind] in H. injection H as <-. eexists; reflexivity.
  - eapply IH; eauto.
Qed.

Lemma concat_alt_names a : alts_structs a = true -> forall l ns, concat_opt (marshal_alt a) l = Some ns ->
  Forall2 (fun x n => is_element (alt_wr a x) n) l ns.
Proof.
  intros Hs. induction l as [|x l IH]; intros ns H; cbn [concat_opt] in H.
  - injection H as <-. constructor.
  - destruct (marshal_alt a x) as [u|] eqn:Eu; [|discriminate]. cbn [bind] in H.
    destruct (concat_opt (marshal_alt a) l) as [w|]; [|discriminate]. cbn [bind] in H. injection H as <-.
    destruct (marshal_alt_name a Hs x u Eu) as [k ->]. constructor; [exists k; reflexivity|]. apply IH. reflexivity.
Qed.

Lemma concat_alt_each a : alts_structs a = true -> forall l ns, concat_opt (marshal_alt a) l = Some ns ->
  Forall2 (fun x n => marshal_alt a x = Some [n]) l ns.
Proof.
  intros Hs. induction l as [|x l IH]; intros ns H; cbn [concat_opt] in H.
  - injection H as <-. constructor.
  - destruct (marshal_alt a x) as [u|] eqn:Eu; [|discriminate]. cbn [bind] in H.
    destruct (concat_opt (marshal_alt a) l) as [w|]; [|discriminate]. cbn [bind] in H. injection H as <-.
    destruct (marshal_alt_name a Hs x u Eu) as [k ->]. constructor; [exact Eu|]. apply IH. reflexivity.
Qed.

Fixpoint alt_reads (e : env) (a : alts) : interp_alts a -> node -> Prop :=
  match a return interp_alts a -> node -> Prop with
  | ANil => fun v => match v with end
  | ACons rd _ t a' => fun v n =>
      match v with
      | inl x => is_element rd n /\ unmarshal e t n (zero t) = Some x
      | inr y => alt_reads e a' y n
      end
  end.

Fixpoint alts_distinct (a : alts) : bool :=
  match a with
  | ANil => true
  | ACons rd _ _ a' => negb (has_alt a' rd) && alts_distinct a'
  end.

Lemma alt_reads_has e a : forall x nm k, alt_reads e a x (Elem nm k) -> has_alt a nm = true.
Proof.
  induction a as [|rd wr t a IH]; intros x nm k H; [destruct x|]. cbn [has_alt].
  destruct x as [x|y]; cbn [alt_reads] in H.
  - destruct H as [[k' E] _]. injection E as -> _. rewrite str_eqb_refl. reflexivity.
  - rewrite (IH _ _ _ H). apply Bool.orb_true_r.
Qed.

Lemma match_alts_iff e a : alts_distinct a = true -> forall nm k x,
  match_alts a nm (d_value (decode e (Elem nm k))) = Some x <-> alt_reads e a x (Elem nm k).
Proof.
  induction a as [|rd wr t a IH]; intros Hd nm k x; [destruct x|].
  cbn [alts_distinct] in Hd. apply Bool.andb_true_iff in Hd as [Hn Hd].
  cbn [match_alts]. destruct (str_eqb rd nm) eqn:E.
  - apply str_eqb_eq in E. subst rd. destruct x as [x|y]; cbn [alt_reads].
    + change (d_value (decode e (Elem nm k)) t (zero t)) with (unmarshal e t (Elem nm k) (zero t)).
      destruct (unmarshal e t (Elem nm k) (zero t)) as [w|]; cbn [option_map].
      * split; [intros H; injection H as ->; split; [exists k; reflexivity | reflexivity]|].
        intros [_ H]. injection H as ->. reflexivity.
      * split; [discriminate | intros [_ H]; discriminate].
    + split.
      * destruct (d_value (decode e (Elem nm k)) t (zero t)); discriminate.
      * intros H. apply alt_reads_has in H. rewrite H in Hn. discriminate.
  - destruct x as [x|y]; cbn [alt_reads].
    + split.
      * destruct (match_alts a nm _); discriminate.
      * intros [[k' E'] _]. injection E' as -> _. rewrite str_eqb_refl in E. discriminate.
    + rewrite <- (IH Hd). destruct (match_alts a nm _) as [w|]; cbn [option_map]; split; intros H;
        try discriminate; injection H as ->; reflexivity.
Qed.

(** ** Lists of alternatives *)

Lemma steps_cons {A} e (f : node -> str -> A -> option A) n kids v :
  steps e f (n :: kids) v = bind (token_step n (f n) v) (steps e f kids).
Proof. reflexivity. Qed.

Lemma solid_cons n kids :
  solid (n :: kids) = match n with Text s => if blank s then solid kids else n :: solid kids | _ => n :: solid kids end.
Proof. unfold solid. cbn [filter]. destruct n; try reflexivity. destruct (blank s); reflexivity. Qed.

(** A loop that appends one item for every child. *)
Lemma steps_append {A} e (f : node -> str -> list A -> option (list A)) (P : A -> node -> Prop) :
  (forall nm k v w, f (Elem nm k) nm v = Some w <-> exists x, w = v ++ [x] /\ P x (Elem nm k)) ->
  (forall x s, ~ P x (Text s)) -> (forall x, ~ P x Misc) ->
  forall kids v w,
  steps e f kids v = Some w <-> exists l, w = v ++ l /\ Forall2 P l (solid kids).
Proof.
  intros Hf HT HM. induction kids as [|n kids IH]; intros v w.
  - split.
    + intros H. injection H as <-. exists []. rewrite app_nil_r. split; [reflexivity | constructor].
    + intros (l & -> & H). inversion H; subst. rewrite app_nil_r. reflexivity.
  - rewrite steps_cons, solid_cons. destruct n as [nm k|s|]; cbn [token_step].
    + destruct (f (Elem nm k) nm v) as [v'|] eqn:E; cbn [bind].
      * pose proof (proj1 (Hf _ _ _ _) E) as (x & -> & Hx). rewrite IH. split.
        -- intros (l & -> & Hl). exists (x :: l). rewrite <- app_assoc. split; [reflexivity|]. constructor; assumption.
        -- intros (l & -> & Hl). inversion Hl as [|y ? l' ? Hy Hl']; subst.
           assert (E2 : f (Elem nm k) nm v = Some (v ++ [y])) by (apply Hf; eauto).
           rewrite E in E2. injection E2 as E2. apply app_inj_tail in E2 as [_ ->].
           exists l'. rewrite <- app_assoc. split; [reflexivity | exact Hl'].
      * split; [discriminate|]. intros (l & -> & Hl). inversion Hl as [|y ? l' ? Hy Hl']; subst.
        assert (E2 : f (Elem nm k) nm v = Some (v ++ [y])) by (apply Hf; eauto). congruence.
    + destruct (blank s); cbn [bind]; [apply IH|].
      split; [discriminate|]. intros (l & -> & Hl). inversion Hl; subst. exfalso. eapply HT; eauto.
    + split; [discriminate|]. intros (l & -> & Hl). inversion Hl; subst. exfalso. eapply HM; eauto.
Qed.

Lemma alt_reads_elem e a : forall x n, alt_reads e a x n -> exists nm k, n = Elem nm k.
Proof.
  induction a as [|rd wr t a IH]; intros x n H; [destruct x|].
  destruct x as [x|y]; cbn [alt_reads] in H; [|eapply IH; eauto]. destruct H as [[k ->] _]. eauto.
Qed.

Lemma alt_step_iff e a : alts_distinct a = true -> forall nm k v w,
  alt_step e a (Elem nm k) nm v = Some w <-> exists x, w = v ++ [x] /\ alt_reads e a x (Elem nm k).
Proof.
  intros Hd nm k v w. unfold alt_step.
  destruct (match_alts a nm (d_value (decode e (Elem nm k)))) as [x|] eqn:E; cbn [option_map].
  - split.
    + intros H. injection H as <-. exists x. split; [reflexivity|]. apply match_alts_iff; assumption.
    + intros (y & -> & H). apply match_alts_iff in H; [|assumption]. congruence.
  - split; [discriminate|]. intros (y & _ & H). apply match_alts_iff in H; [|assumption]. congruence.
Qed.

Lemma altlist_iff e x a nm kids : alts_distinct a = true -> forall l,
  unmarshal e (TAltList x a) (Elem nm kids) (zero (TAltList x a)) = Some l <->
  Forall2 (alt_reads e a) l (solid kids).
Proof.
  intros Hd l. rewrite unmarshal_altlist. cbn [zero].
  rewrite (steps_append e (alt_step e a) (alt_reads e a) (alt_step_iff e a Hd)).
  - split; [intros (l' & -> & H); exact H | intros H; exists l; split; [reflexivity | exact H]].
  - intros y s H. apply alt_reads_elem in H as (? & ? & H). discriminate.
  - intros y H. apply alt_reads_elem in H as (? & ? & H). discriminate.
Qed.

Lemma has_alt_match a nm k : has_alt a nm = false -> match_alts a nm k = None.
Proof.
  induction a as [|rd wr t a IH]; intros H; [reflexivity|]. cbn [has_alt match_alts] in *.
  apply Bool.orb_false_iff in H as [-> H]. rewrite (IH H). reflexivity.
Qed.

Lemma Forall2_map_l {A B C} (f : A -> B) (P : B -> C -> Prop) l l' :
  Forall2 P (map f l) l' <-> Forall2 (fun x => P (f x)) l l'.
Proof.
  split.
  - revert l'. induction l as [|x l IH]; intros l' H; inversion H; subst; constructor; auto.
  - induction 1; constructor; auto.
Qed.

Lemma Forall2_iff {A B} (P Q : A -> B -> Prop) l l' :
  (forall x y, P x y <-> Q x y) -> (Forall2 P l l' <-> Forall2 Q l l').
Proof. intros H. split; induction 1; constructor; auto; apply H; auto. Qed.

(** ** Security lists *)

Ltac alt_cases H x of rd :=
  repeat (destruct x as [x|x];
    [destruct H as [H1 H2]; cbn [of]; unfold rd, reads; rewrite H2; split; [exact H1 | reflexivity] |]);
  destruct x.

Ltac alt_find H :=
  let Hn := fresh in let E := fresh in let v := fresh in
  destruct H as [Hn H];
  match type of H with option_map _ (unmarshal ?e ?t ?n ?z) = _ =>
    destruct (unmarshal e t n z) as [v|] eqn:E; [|discriminate H]; cbn [option_map] in H; injection H as <-;
    let rec go u := first [exists u; split; [reflexivity | exact (conj Hn E)] | go uconstr:(inr u)] in
    go uconstr:(inl v)
  end.

Lemma security_reads_1 e x n : alt_reads e Security_alts x n -> security_reads e (Security_of x) n.
Proof. intros H. alt_cases H x Security_of security_reads. Qed.

Lemma security_reads_2 e s n : security_reads e s n -> exists x, Security_of x = s /\ alt_reads e Security_alts x n.
Proof. intros H. destruct s; cbn [security_reads] in H; alt_find H. Qed.

Lemma Forall2_lift {A B C} (f : A -> B) (P : A -> C -> Prop) (Q : B -> C -> Prop) :
  (forall x n, P x n -> Q (f x) n) ->
  (forall s n, Q s n -> exists x, f x = s /\ P x n) ->
  forall l ns, Forall2 Q l ns <-> exists xs, map f xs = l /\ Forall2 P xs ns.
Proof.
  intros H1 H2 l ns. split.
  - induction 1 as [|s n l ns Hs Hl (xs & <- & IH)]; [exists []; split; constructor|].
    apply H2 in Hs as (x & <- & Hx). exists (x :: xs). split; [reflexivity | constructor; assumption].
  - intros (xs & <- & H). rewrite Forall2_map_l. induction H; constructor; auto.
Qed.

Lemma security_step e nm k l :
  cust_step e SecurityList_fields (Elem nm k) nm (l, tt) =
  option_map (fun l => (l, tt)) (alt_step e Security_alts (Elem nm k) nm l).
Proof.
  change (cust_step e SecurityList_fields (Elem nm k) nm (l, tt)) with
    (if has_alt Security_alts nm
     then option_map (fun x => (x, tt)) (unmarshal e (TAlts Security_alts) (Elem nm k) l) else None).
  rewrite unmarshal_alts. unfold alt_step. destruct (has_alt Security_alts nm) eqn:Eh.
  - destruct (match_alts Security_alts nm _); reflexivity.
  - rewrite (has_alt_match _ _ _ Eh). reflexivity.
Qed.

Lemma security_steps e ks : forall l : list (interp_alts Security_alts),
  steps e (cust_step e SecurityList_fields) ks (l, tt) =
  option_map (fun l => (l, tt)) (steps e (alt_step e Security_alts) ks l).
Proof.
  induction ks as [|n ks IH]; intros l; [reflexivity|]. rewrite !steps_cons.
  destruct n as [nm' k'|s|]; cbn [token_step]; try reflexivity.
  - rewrite security_step. destruct (alt_step e Security_alts (Elem nm' k') nm' l); cbn [option_map bind];
      [apply IH | reflexivity].
  - destruct (blank s); cbn [bind]; [apply IH | reflexivity].
Qed.

Lemma pair_tt_iff {A} (o : option A) v : option_map (fun l => (l, tt)) o = Some (v, tt) <-> o = Some v.
Proof. destruct o; cbn [option_map]; split; intros H; congruence. Qed.

Lemma security_list_iff e nm kids v :
  unmarshal e SecurityList_ty (Elem nm kids) (zero SecurityList_ty) = Some v <->
  Forall2 (alt_reads e Security_alts) (fst v) (solid kids).
Proof.
  unfold SecurityList_ty. rewrite unmarshal_custom.
  assert (Hd : alts_distinct Security_alts = true) by (vm_compute; reflexivity).
  change (zero (TCustom (bs "SECLIST") SecurityList_fields)) with (@nil (interp_alts Security_alts), tt).
  rewrite security_steps. rewrite <- (altlist_iff e [] Security_alts nm kids Hd). rewrite unmarshal_altlist. cbn [zero].
  destruct v as [v []]. cbn [fst]. apply pair_tt_iff.
Qed.

Lemma security_list_reads e nm kids r :
  option_map SecurityList_of (unmarshal e SecurityList_ty (Elem nm kids) (zero SecurityList_ty)) = Some r <->
  Forall2 (security_reads e) (SecurityList_Securities r) (solid kids).
Proof.
  rewrite (Forall2_lift Security_of _ _ (security_reads_1 e) (security_reads_2 e)). split.
  - intros H. destruct (unmarshal _ _ _ _) as [v|] eqn:E; [|discriminate]. cbn [option_map] in H. injection H as <-.
    apply security_list_iff in E. destruct v as [v []]. exists v. split; [reflexivity | exact E].
  - intros (xs & E & H). apply (security_list_iff e nm kids (xs, tt)) in H. rewrite H. cbn [option_map].
    destruct r. cbn in E. subst. reflexivity.
Qed.

Lemma security_list_encode r : exists kids,
  encode_as SecurityList_ty (SecurityList_to r) = Some [Elem (bs "SECLIST") kids] /\
  Forall2 (fun s n => is_element (security_name s) n) (SecurityList_Securities r) kids.
Proof.
  destruct (marshal_some SecurityList_ty false [] false (SecurityList_to r)) as [ns E]; [vm_compute; reflexivity|].
  unfold encode_as. rewrite E. unfold SecurityList_ty in E. cbn [marshal] in E.
  change (custom_kids SecurityList_fields (SecurityList_to r)) with
    (bind (concat_opt (marshal_alt Security_alts) (map Security_to (SecurityList_Securities r)))
      (fun a => Some (a ++ []))) in E.
  destruct (concat_opt _ _) as [k|] eqn:Ek; [|discriminate]. cbn [bind] in E. injection E as <-. exists (k ++ []).
  split; [reflexivity|]. rewrite app_nil_r.
  apply concat_alt_names in Ek; [|reflexivity]. rewrite Forall2_map_l in Ek.
  revert Ek. apply Forall2_iff. intros s n. destruct s; reflexivity.
Qed.

Lemma security_list_round_trip e r n : representable e SecurityList_ty (SecurityList_to r) ->
  encode_as SecurityList_ty (SecurityList_to r) = Some [n] ->
  option_map SecurityList_of (unmarshal e SecurityList_ty n (zero SecurityList_ty)) = Some r.
Proof. intros Hr E. exact (encode_reads e (MsgSecurityList r) n Hr E). Qed.

(** ** Position lists and open order lists *)

Lemma position_reads_1 e x n : alt_reads e Position_alts x n -> position_reads e (Position_of x) n.
Proof. intros H. alt_cases H x Position_of position_reads. Qed.

Lemma position_reads_2 e s n : position_reads e s n -> exists x, Position_of x = s /\ alt_reads e Position_alts x n.
Proof. intros H. destruct s; cbn [position_reads] in H; alt_find H. Qed.

Lemma order_reads_1 e x n : alt_reads e OpenOrder_alts x n -> order_reads e (OpenOrder_of x) n.
Proof. intros H. alt_cases H x OpenOrder_of order_reads. Qed.

Lemma order_reads_2 e s n : order_reads e s n -> exists x, OpenOrder_of x = s /\ alt_reads e OpenOrder_alts x n.
Proof. intros H. destruct s; cbn [order_reads] in H; alt_find H. Qed.

Lemma altlist_reads {R} e x a (of : interp_alts a -> R) (rd : R -> node -> Prop) nm kids l :
  alts_distinct a = true ->
  (forall x n, alt_reads e a x n -> rd (of x) n) ->
  (forall s n, rd s n -> exists x, of x = s /\ alt_reads e a x n) ->
  option_map (map of) (unmarshal e (TAltList x a) (Elem nm kids) (zero (TAltList x a))) = Some l <->
  Forall2 rd l (solid kids).
Proof.
  intros Hd H1 H2. rewrite (Forall2_lift of _ _ H1 H2). split.
  - intros H. destruct (unmarshal _ _ _ _) as [v|] eqn:E; [|discriminate]. cbn [option_map] in H. injection H as <-.
    exists v. split; [reflexivity | apply altlist_iff in E; assumption].
  - intros (xs & <- & H). apply (altlist_iff e x a nm kids Hd) in H. rewrite H. reflexivity.
Qed.

Lemma position_list_reads e nm kids l :
  option_map (map Position_of) (unmarshal e PositionList_ty (Elem nm kids) (zero PositionList_ty)) = Some l <->
  Forall2 (position_reads e) l (solid kids).
Proof.
  apply altlist_reads; [vm_compute; reflexivity | apply position_reads_1 | apply position_reads_2].
Qed.

Lemma order_list_reads e nm kids l :
  option_map (map OpenOrder_of) (unmarshal e OOList_ty (Elem nm kids) (zero OOList_ty)) = Some l <->
  Forall2 (order_reads e) l (solid kids).
Proof.
  apply altlist_reads; [vm_compute; reflexivity | apply order_reads_1 | apply order_reads_2].
Qed.

Lemma altlist_encode {R} x a (to : R -> interp_alts a) (name : R -> str) (l : list R) :
  alts_structs a = true -> enums_ok (TAltList x a) && no_msgsets (TAltList x a) = true ->
  (forall s, alt_wr a (to s) = name s) ->
  exists kids, encode_as (TAltList x a) (map to l) = Some [Elem x kids] /\
    Forall2 (fun s n => is_element (name s) n) l kids.
Proof.
  intros Hs Hm Hn. destruct (marshal_some (TAltList x a) false [] false (map to l) Hm) as [ns E].
  unfold encode_as. rewrite E. cbn [marshal andb] in E.
  destruct (concat_opt _ _) as [k|] eqn:Ek; [|discriminate]. cbn [bind] in E. injection E as <-. exists k.
  split; [reflexivity|].
  apply concat_alt_names in Ek; [|exact Hs]. rewrite Forall2_map_l in Ek.
  revert Ek. apply Forall2_iff. intros s n. rewrite Hn. reflexivity.
Qed.

Lemma position_list_encode l : exists kids,
  encode_as PositionList_ty (map Position_to l) = Some [Elem (bs "INVPOSLIST") kids] /\
  Forall2 (fun s n => is_element (position_name s) n) l kids.
Proof.
  apply (altlist_encode (bs "INVPOSLIST") Position_alts Position_to position_name l);
    [reflexivity | vm_compute; reflexivity | intros s; destruct s; reflexivity].
Qed.

Lemma order_list_encode l : exists kids,
  encode_as OOList_ty (map OpenOrder_to l) = Some [Elem (bs "INVOOLIST") kids] /\
  Forall2 (fun s n => is_element (order_name s) n) l kids.
Proof.
  apply (altlist_encode (bs "INVOOLIST") OpenOrder_alts OpenOrder_to order_name l);
    [reflexivity | vm_compute; reflexivity | intros s; destruct s; reflexivity].
Qed.

Lemma altlist_round {R} e x a (to : R -> interp_alts a) (of : interp_alts a -> R) (l : list R) n :
  enums_ok (TAltList x a) && names_ok (TAltList x a) x = true -> wf_ty (TAltList x a) false = true ->
  (forall r, of (to r) = r) ->
  representable e (TAltList x a) (map to l) ->
  encode_as (TAltList x a) (map to l) = Some [n] ->
  option_map (map of) (unmarshal e (TAltList x a) n (zero (TAltList x a))) = Some l.
Proof.
  intros Hok Hwf Hiso Hr E. apply (representable_rt e _ x) in Hr; [|exact Hok].
  destruct round_trip_all as [R0 _]. destruct (R0 (TAltList x a)) as [R' _].
  destruct (R' e false x false (map to l) [n] Hwf Hr E) as [_ R2].
  cbn [map run_all] in R2. destruct (unmarshal e (TAltList x a) n (zero (TAltList x a))) as [v|]; [|discriminate].
  cbn [bind] in R2. injection R2 as ->. cbn [option_map]. f_equal. rewrite map_map.
  rewrite <- (map_id l) at 2. apply map_ext. exact Hiso.
Qed.

Lemma position_list_round e l n : representable e PositionList_ty (map Position_to l) ->
  encode_as PositionList_ty (map Position_to l) = Some [n] ->
  option_map (map Position_of) (unmarshal e PositionList_ty n (zero PositionList_ty)) = Some l.
Proof.
  apply altlist_round; [vm_compute; reflexivity | vm_compute; reflexivity | apply Position_iso].
Qed.

Lemma order_list_round e l n : representable e OOList_ty (map OpenOrder_to l) ->
  encode_as OOList_ty (map OpenOrder_to l) = Some [n] ->
  option_map (map OpenOrder_of) (unmarshal e OOList_ty n (zero OOList_ty)) = Some l.
Proof.
  apply altlist_round; [vm_compute; reflexivity | vm_compute; reflexivity | apply OpenOrder_iso].
Qed.

(** ** Investment transaction lists *)

Lemma transaction_reads_1 e x n : alt_reads e InvTransaction_alts x n -> transaction_reads e (InvTransaction_of x) n.
Proof. intros H. alt_cases H x InvTransaction_of transaction_reads. Qed.

Lemma transaction_reads_2 e s n : transaction_reads e s n ->
  exists x, InvTransaction_of x = s /\ alt_reads e InvTransaction_alts x n.
Proof. intros H. destruct s; cbn [transaction_reads] in H; alt_find H. Qed.

Fixpoint alt_rds (a : alts) : list str := match a with ANil => [] | ACons rd _ _ a' => rd :: alt_rds a' end.

Lemma str_eqb_comm (a b : str) : str_eqb a b = str_eqb b a.
Proof.
  destruct (str_eqb a b) eqn:E1, (str_eqb b a) eqn:E2; try reflexivity.
  - apply str_eqb_eq in E1. subst. rewrite str_eqb_refl in E2. discriminate.
  - apply str_eqb_eq in E2. subst. rewrite str_eqb_refl in E1. discriminate.
Qed.

Lemma has_alt_names a nm : has_alt a nm = existsb (str_eqb nm) (alt_rds a).
Proof. induction a as [|rd wr t a IH]; [reflexivity|]. cbn. rewrite IH, str_eqb_comm. reflexivity. Qed.

Lemma transaction_has nm : has_alt InvTransaction_alts nm = existsb (str_eqb nm) transaction_names.
Proof. rewrite has_alt_names. reflexivity. Qed.

Definition tranlist := (gotime * (gotime * (list (interp_alts InvTransaction_alts) *
  (list (interp InvBankTransaction_ty) * unit))))%type.

Lemma tran_step e nm k a b c d :
  cust_step e InvTranList_fields (Elem nm k) nm (a, (b, (c, (d, tt)))) =
  if str_eqb (bs "DTSTART") nm then option_map (fun x => (x, (b, (c, (d, tt))))) (date_unmarshal e (text_of k))
  else if str_eqb (bs "DTEND") nm then option_map (fun x => (a, (x, (c, (d, tt))))) (date_unmarshal e (text_of k))
  else if has_alt InvTransaction_alts nm then
    option_map (fun x => (a, (b, (c ++ [x], (d, tt)))))
      (match_alts InvTransaction_alts nm (d_value (decode e (Elem nm k))))
  else if str_eqb (bs "INVBANKTRAN") nm then
    option_map (fun x => (a, (b, (c, (d ++ [x], tt)))))
      (unmarshal e InvBankTransaction_ty (Elem nm k) (zero InvBankTransaction_ty))
  else None.
Proof.
  change (cust_step e InvTranList_fields (Elem nm k) nm (a, (b, (c, (d, tt))))) with
  (if str_eqb (bs "DTSTART") nm then option_map (fun x => (x, (b, (c, (d, tt))))) (date_unmarshal e (text_of k))
   else option_map (pair a)
    (if str_eqb (bs "DTEND") nm then option_map (fun x => (x, (c, (d, tt)))) (date_unmarshal e (text_of k))
     else option_map (pair b)
      (if has_alt InvTransaction_alts nm then
         option_map (fun x => (x, (d, tt))) (unmarshal e (TAlts InvTransaction_alts) (Elem nm k) c)
       else option_map (pair c)
        (if str_eqb (bs "INVBANKTRAN") nm then
           option_map (fun x => (x, tt)) (unmarshal e (TSlice InvBankTransaction_ty) (Elem nm k) d)
         else None)))).
  destruct (str_eqb (bs "DTSTART") nm); [reflexivity|].
  destruct (str_eqb (bs "DTEND") nm); [destruct (date_unmarshal e (text_of k)); reflexivity|].
  destruct (has_alt InvTransaction_alts nm).
  - rewrite unmarshal_alts. destruct (match_alts InvTransaction_alts nm _); reflexivity.
  - destruct (str_eqb (bs "INVBANKTRAN") nm); [|reflexivity]. rewrite unmarshal_slice.
    destruct (unmarshal e InvBankTransaction_ty _ _); reflexivity.
Qed.

Definition last_or (e : env) (d0 : gotime) (ns : list node) (d : gotime) : Prop :=
  match rev ns with
  | [] => d = d0
  | n :: _ => exists nm kids, n = Elem nm kids /\ date_unmarshal e (text_of kids) = Some d
  end.

Lemma last_or_cons e d0 d1 nm k ns d :
  date_unmarshal e (text_of k) = Some d1 -> last_or e d1 ns d -> last_or e d0 (Elem nm k :: ns) d.
Proof.
  unfold last_or. cbn [rev]. intros H1 H2. destruct (rev ns) as [|n l]; cbn [app]; [|exact H2].
  subst d1. exists nm, k. split; [reflexivity | exact H1].
Qed.

Definition bank_reads (e : env) (b : interp InvBankTransaction_ty) (n : node) : Prop :=
  is_element (bs "INVBANKTRAN") n /\ unmarshal e InvBankTransaction_ty n (zero InvBankTransaction_ty) = Some b.

Lemma having_cons nms nm k kids :
  having nms (Elem nm k :: kids) = if existsb (str_eqb nm) nms then Elem nm k :: having nms kids else having nms kids.
Proof. reflexivity. Qed.

Lemma tran_steps e kids : forall a b c d a' b' c' d',
  steps e (cust_step e InvTranList_fields) kids (a, (b, (c, (d, tt)))) = Some (a', (b', (c', (d', tt)))) ->
  last_or e a (having [bs "DTSTART"] (solid kids)) a' /\
  last_or e b (having [bs "DTEND"] (solid kids)) b' /\
  (exists l, c' = c ++ l /\ Forall2 (alt_reads e InvTransaction_alts) l (having transaction_names (solid kids))) /\
  (exists l, d' = d ++ l /\ Forall2 (bank_reads e) l (having [bs "INVBANKTRAN"] (solid kids))) /\
  Forall known_child (solid kids).
Proof.
  induction kids as [|n kids IH]; intros a b c d a' b' c' d' H.
  - injection H as <- <- <- <-. cbn [solid filter having]. unfold last_or; cbn [rev].
    repeat split; try constructor; exists []; rewrite app_nil_r; split; constructor.
  - rewrite steps_cons in H. rewrite solid_cons. destruct n as [nm k|s|]; cbn [token_step] in H.
    + rewrite tran_step in H. rewrite !having_cons.
      destruct (str_eqb (bs "DTSTART") nm) eqn:E1.
      { apply str_eqb_eq in E1. subst nm.
        destruct (date_unmarshal e (text_of k)) as [t|] eqn:Ed; [|discriminate]. cbn [option_map bind] in H.
        apply IH in H as (H1 & H2 & H3 & H4 & H5).
        change (existsb (str_eqb (bs "DTSTART")) [bs "DTSTART"]) with true.
        change (existsb (str_eqb (bs "DTSTART")) [bs "DTEND"]) with false.
        change (existsb (str_eqb (bs "DTSTART")) transaction_names) with false.
        change (existsb (str_eqb (bs "DTSTART")) [bs "INVBANKTRAN"]) with false. cbv iota.
        split; [eapply last_or_cons; eauto|]. repeat (split; [assumption|]). constructor; [|assumption].
        exists (bs "DTSTART"), k. split; [reflexivity | left; reflexivity]. }
      destruct (str_eqb (bs "DTEND") nm) eqn:E2.
      { apply str_eqb_eq in E2. subst nm.
        destruct (date_unmarshal e (text_of k)) as [t|] eqn:Ed; [|discriminate]. cbn [option_map bind] in H.
        apply IH in H as (H1 & H2 & H3 & H4 & H5).
        change (existsb (str_eqb (bs "DTEND")) [bs "DTSTART"]) with false.
        change (existsb (str_eqb (bs "DTEND")) [bs "DTEND"]) with true.
        change (existsb (str_eqb (bs "DTEND")) transaction_names) with false.
        change (existsb (str_eqb (bs "DTEND")) [bs "INVBANKTRAN"]) with false. cbv iota.
        split; [assumption|]. split; [eapply last_or_cons; eauto|]. repeat (split; [assumption|]). constructor; [|assumption].
        exists (bs "DTEND"), k. split; [reflexivity | right; left; reflexivity]. }
      assert (Ex1 : existsb (str_eqb nm) [bs "DTSTART"] = false)
        by (cbn [existsb]; rewrite str_eqb_comm, E1; reflexivity).
      assert (Ex2 : existsb (str_eqb nm) [bs "DTEND"] = false)
        by (cbn [existsb]; rewrite str_eqb_comm, E2; reflexivity).
      rewrite Ex1, Ex2. rewrite <- transaction_has.
      destruct (has_alt InvTransaction_alts nm) eqn:E3.
      { destruct (match_alts InvTransaction_alts nm _) as [x|] eqn:Em; [|discriminate]. cbn [option_map bind] in H.
        apply IH in H as (H1 & H2 & (l & -> & H3) & H4 & H5).
        assert (Ex3 : existsb (str_eqb nm) [bs "INVBANKTRAN"] = false).
        { cbn [existsb]. destruct (str_eqb nm (bs "INVBANKTRAN")) eqn:E4; [|reflexivity].
          apply str_eqb_eq in E4. subst nm. vm_compute in E3. discriminate. }
        rewrite Ex3. split; [assumption|]. split; [assumption|]. split.
        - exists (x :: l). rewrite <- app_assoc. split; [reflexivity|]. constructor; [|exact H3].
          apply match_alts_iff; [vm_compute; reflexivity | exact Em].
        - split; [assumption|]. constructor; [|assumption]. exists nm, k. split; [reflexivity|].
          right; right; right. rewrite transaction_has in E3. apply existsb_exists in E3 as (y & Hy & E3).
          apply str_eqb_eq in E3. subst. exact Hy. }
      destruct (str_eqb (bs "INVBANKTRAN") nm) eqn:E4; [|discriminate]. apply str_eqb_eq in E4. subst nm.
      destruct (unmarshal e InvBankTransaction_ty _ _) as [x|] eqn:Em; [|discriminate]. cbn [option_map bind] in H.
      apply IH in H as (H1 & H2 & H3 & (l & -> & H4) & H5).
      change (existsb (str_eqb (bs "INVBANKTRAN")) [bs "INVBANKTRAN"]) with true. cbv iota.
      repeat (split; [assumption|]). split.
      * exists (x :: l). rewrite <- app_assoc. split; [reflexivity|]. constructor; [|exact H4].
        split; [exists k; reflexivity | exact Em].
      * constructor; [|assumption]. exists (bs "INVBANKTRAN"), k. split; [reflexivity | right; right; left; reflexivity].
    + destruct (blank s); [|discriminate]. cbn [bind] in H. apply IH in H. exact H.
    + discriminate.
Qed.

Lemma bank_reads_lift e l ns : Forall2 (bank_reads e) l ns ->
  Forall2 (bank_transaction_reads e) (map InvBankTransaction_of l) ns.
Proof.
  rewrite Forall2_map_l. induction 1 as [|x n l ns [H1 H2] _ IH]; constructor; [|exact IH].
  split; [exact H1|]. rewrite H2. reflexivity.
Qed.

Lemma tran_list_reads e nm kids r :
  option_map InvTranList_of (unmarshal e InvTranList_ty (Elem nm kids) (zero InvTranList_ty)) = Some r ->
  last_date e (having [bs "DTSTART"] (solid kids)) (InvTranList_DtStart r) /\
  last_date e (having [bs "DTEND"] (solid kids)) (InvTranList_DtEnd r) /\
  Forall2 (transaction_reads e) (InvTranList_InvTransactions r) (having transaction_names (solid kids)) /\
  Forall2 (bank_transaction_reads e) (InvTranList_BankTransactions r) (having [bs "INVBANKTRAN"] (solid kids)) /\
  Forall known_child (solid kids).
Proof.
  unfold InvTranList_ty. rewrite unmarshal_custom. intros H.
  destruct (steps _ _ _ _) as [[a [b [c [d []]]]]|] eqn:E; [|discriminate].
  cbn [option_map InvTranList_of] in H. injection H as <-.
  cbn [InvTranList_DtStart InvTranList_DtEnd InvTranList_InvTransactions InvTranList_BankTransactions].
  apply tran_steps in E as (H1 & H2 & (l & -> & H3) & (l' & -> & H4) & H5).
  split; [exact H1|]. split; [exact H2|]. split.
  { apply (Forall2_lift InvTransaction_of _ _ (transaction_reads_1 e) (transaction_reads_2 e)). eauto. }
  split; [|exact H5]. apply bank_reads_lift. exact H4.
Qed.

Lemma tran_step_some e nm k v : child_reads e (Elem nm k) ->
  some (cust_step e InvTranList_fields (Elem nm k) nm v).
Proof.
  destruct v as [a [b [c [d []]]]]. rewrite tran_step. intros [H|[H|H]].
  - destruct H as (nm' & k' & t & E & Hin & Hd). injection E as <- <-.
    rewrite Hd. destruct Hin as [<-|[<-|[]]]; discriminate.
  - destruct H as (t & H). apply transaction_reads_2 in H as (x & _ & H).
    pose proof (alt_reads_has _ _ _ _ _ H) as Hh.
    apply match_alts_iff in H; [|vm_compute; reflexivity]. rewrite H, Hh.
    destruct (str_eqb (bs "DTSTART") nm) eqn:E1; [apply str_eqb_eq in E1; subst nm; vm_compute in Hh; discriminate|].
    destruct (str_eqb (bs "DTEND") nm) eqn:E2; [apply str_eqb_eq in E2; subst nm; vm_compute in Hh; discriminate|].
    discriminate.
  - destruct H as (x & [k' E] & H). injection E as -> <-.
    change (str_eqb (bs "DTSTART") (bs "INVBANKTRAN")) with false.
    change (str_eqb (bs "DTEND") (bs "INVBANKTRAN")) with false.
    change (has_alt InvTransaction_alts (bs "INVBANKTRAN")) with false.
    change (str_eqb (bs "INVBANKTRAN") (bs "INVBANKTRAN")) with true. cbv iota.
    destruct (unmarshal e InvBankTransaction_ty _ _); [discriminate | discriminate H].
Qed.

Lemma tran_list_some e nm kids : Forall (child_reads e) (solid kids) ->
  some (unmarshal e InvTranList_ty (Elem nm kids) (zero InvTranList_ty)).
Proof.
  unfold InvTranList_ty. rewrite unmarshal_custom.
  generalize (zero (TCustom (bs "INVTRANLIST") InvTranList_fields)). 
  induction kids as [|n kids IH]; intros v H; [discriminate|].
  rewrite steps_cons. rewrite solid_cons in H. destruct n as [nm' k|s|]; cbn [token_step].
  - pose proof (tran_step_some e nm' k v (Forall_inv H)) as Hs.
    destruct (cust_step _ _ _ _ _) as [v'|]; [|exfalso; apply Hs; reflexivity].
    cbn [bind]. apply IH. exact (Forall_inv_tail H).
  - destruct (blank s); cbn [bind]; [apply IH; exact H|].
    exfalso. apply Forall_inv in H. destruct H as [(? & ? & ? & E & _)|[(t & H)|(b & [[? E] _])]];
      try discriminate. apply transaction_reads_2 in H as (? & _ & H). apply alt_reads_elem in H as (? & ? & H). discriminate.
  - exfalso. apply Forall_inv in H. destruct H as [(? & ? & ? & E & _)|[(t & H)|(b & [[? E] _])]];
      try discriminate. apply transaction_reads_2 in H as (? & _ & H). apply alt_reads_elem in H as (? & ? & H). discriminate.
Qed.

Lemma tran_list_encode_each r : exists d1 d2 ts bts,
  encode_as InvTranList_ty (InvTranList_to r) =
    Some [Elem (bs "INVTRANLIST") (Elem (bs "DTSTART") d1 :: Elem (bs "DTEND") d2 :: ts ++ bts)] /\
  text_of d1 = date_string (InvTranList_DtStart r) /\ text_of d2 = date_string (InvTranList_DtEnd r) /\
  Forall2 (fun s n => is_element (transaction_name s) n /\
             marshal_alt InvTransaction_alts (InvTransaction_to s) = Some [n]) (InvTranList_InvTransactions r) ts /\
  Forall2 (fun s n => is_element (bs "INVBANKTRAN") n) (InvTranList_BankTransactions r) bts.
Proof.
  destruct (marshal_some InvTranList_ty false [] false (InvTranList_to r)) as [ns E]; [vm_compute; reflexivity|].
  unfold encode_as. rewrite E. unfold InvTranList_ty in E. cbn [marshal] in E.
  pose (mb := marshal InvBankTransaction_ty true (bs "INVBANKTRAN") false).
  assert (C : custom_kids InvTranList_fields (InvTranList_to r) =
    bind (concat_opt (marshal_alt InvTransaction_alts) (map InvTransaction_to (InvTranList_InvTransactions r))) (fun ts =>
    bind (concat_opt mb (map InvBankTransaction_to (InvTranList_BankTransactions r))) (fun bts =>
    Some (Elem (bs "DTSTART") (text_kids (date_string (InvTranList_DtStart r))) ::
          Elem (bs "DTEND") (text_kids (date_string (InvTranList_DtEnd r))) :: ts ++ bts)))).
  { transitivity
    (bind (Some [Elem (bs "DTSTART") (text_kids (date_string (InvTranList_DtStart r)))]) (fun a =>
     bind (bind (Some [Elem (bs "DTEND") (text_kids (date_string (InvTranList_DtEnd r)))]) (fun a' =>
     bind (bind (concat_opt (marshal_alt InvTransaction_alts) (map InvTransaction_to (InvTranList_InvTransactions r))) (fun c =>
     bind (bind (concat_opt mb (map InvBankTransaction_to (InvTranList_BankTransactions r))) (fun d =>
     bind (Some []) (fun z => Some (d ++ z)))) (fun x => Some (c ++ x)))) (fun x => Some (a' ++ x))))
      (fun x => Some (a ++ x)))).
    - reflexivity.
    - cbn [bind]. destruct (concat_opt (marshal_alt InvTransaction_alts) _); [|reflexivity]. cbn [bind].
      destruct (concat_opt mb _); [|reflexivity]. cbn [bind]. rewrite app_nil_r. reflexivity. }
  rewrite C in E. clear C.
  destruct (concat_opt (marshal_alt InvTransaction_alts) _) as [ts|] eqn:Ets; [|discriminate]. cbn [bind] in E.
  destruct (concat_opt mb _) as [bts|] eqn:Eb; [|discriminate]. cbn [bind] in E. injection E as <-.
  exists (text_kids (date_string (InvTranList_DtStart r))), (text_kids (date_string (InvTranList_DtEnd r))), ts, bts.
  split; [reflexivity|]. split; [apply text_of_text_kids|]. split; [apply text_of_text_kids|]. split.
  - apply concat_alt_each in Ets; [|reflexivity]. rewrite Forall2_map_l in Ets.
    clear - Ets. induction Ets as [|t n l l' Ht _ IH]; constructor; [|exact IH]. split; [|exact Ht].
    destruct (marshal_alt_name InvTransaction_alts eq_refl _ _ Ht) as [k E]. injection E as ->.
    exists k. destruct t; reflexivity.
  - clear - Eb. revert bts Eb. induction (InvTranList_BankTransactions r) as [|b l IH]; intros bts Eb.
    + injection Eb as <-. constructor.
    + cbn [map concat_opt] in Eb. destruct (mb (InvBankTransaction_to b)) as [u|] eqn:Eu; [|discriminate].
      cbn [bind] in Eb. destruct (concat_opt mb _) as [w|]; [|discriminate]. cbn [bind] in Eb. injection Eb as <-.
      unfold mb, InvBankTransaction_ty in Eu. cbn [marshal orb] in Eu.
      destruct (struct_cmds InvBankTransaction_fields [] (InvBankTransaction_to b)) as [q|]; [|discriminate].
      cbn [bind] in Eu. injection Eu as <-. constructor; [eexists; reflexivity | apply IH; reflexivity].
Qed.

Lemma tran_list_encode r : exists d1 d2 ts bts,
  encode_as InvTranList_ty (InvTranList_to r) =
    Some [Elem (bs "INVTRANLIST") (Elem (bs "DTSTART") d1 :: Elem (bs "DTEND") d2 :: ts ++ bts)] /\
  text_of d1 = date_string (InvTranList_DtStart r) /\ text_of d2 = date_string (InvTranList_DtEnd r) /\
  Forall2 (fun s n => is_element (transaction_name s) n) (InvTranList_InvTransactions r) ts /\
  Forall2 (fun s n => is_element (bs "INVBANKTRAN") n) (InvTranList_BankTransactions r) bts.
Proof.
  destruct (tran_list_encode_each r) as (d1 & d2 & ts & bts & H1 & H2 & H3 & H4 & H5).
  exists d1, d2, ts, bts. repeat (split; [assumption|]). split; [|assumption].
  clear - H4. induction H4 as [|? ? ? ? [? ?]]; constructor; auto.
Qed.

Lemma tran_list_round_trip e r n : representable e InvTranList_ty (InvTranList_to r) ->
  encode_as InvTranList_ty (InvTranList_to r) = Some [n] ->
  option_map InvTranList_of (unmarshal e InvTranList_ty n (zero InvTranList_ty)) = Some r.
Proof.
  intros Hr E. assert (Hrt : rt_ok e InvTranList_ty (top_name InvTranList_ty) (InvTranList_to r)).
  { apply representable_rt; [vm_compute; reflexivity | exact Hr]. }
  destruct (top_round e InvTranList_ty _ _ ltac:(vm_compute; reflexivity) Hrt E) as (k & E1 & E2).
  assert (En : n = Elem (top_name InvTranList_ty) k) by congruence. rewrite En, E2. cbn [option_map].
  rewrite InvTranList_iso. reflexivity.
Qed.

(** ** Message set lists *)

Definition with_name (fs : flds) : flds := FCons [] (bs "Name") false (TLeaf LString) fs.
Definition rest {fs} (p : interp_flds (with_name fs)) : interp_flds fs := snd p.

Lemma match_with_name fs nm ps k (p : interp_flds (with_name fs)) :
  match_fields (with_name fs) ps nm k p =
  if null ps && str_eqb (bs "Name") nm
  then Hit (option_map (fun x => (x, rest p)) (k (TLeaf LString) (fst p)))
  else found_map (pair (fst p)) (match_fields fs ps nm k (rest p)).
Proof. destruct ps; [|reflexivity]. unfold with_name. cbn [match_fields strip_prefix null andb]. reflexivity. Qed.

Lemma name_field_walk e fs :
  (forall k v, match_fields fs [] (bs "Name") k v = NoMatch) ->
  forall n ps (p : interp_flds (with_name fs)),
  option_map rest (d_walk (decode e n) (with_name fs) ps p) = d_walk (decode e n) fs ps (rest p).
Proof.
  intros Hno. induction n as [nm k IH|s|] using node_ind'; intros ps p; try reflexivity.
  rewrite !walk_elem, match_with_name.
  assert (W : forall ps p, option_map rest (walks e (with_name fs) ps k p) = walks e fs ps k (rest p)).
  { clear - IH. induction IH as [|n k Hn _ IHk]; intros ps p; [reflexivity|]. rewrite !walks_cons, <- Hn.
    destruct (d_walk (decode e n) (with_name fs) ps p) as [p'|]; cbn [option_map bind]; [apply IHk | reflexivity]. }
  destruct (null ps && str_eqb (bs "Name") nm) eqn:E.
  - apply Bool.andb_true_iff in E as [E1 E2]. destruct ps; [|discriminate]. apply str_eqb_eq in E2. subst nm.
    rewrite Hno. reflexivity.
  - destruct (match_fields fs ps nm _ (rest p)) as [| |r]; cbn [found_map]; [reflexivity | apply W |].
    destruct r; reflexivity.
Qed.

Lemma name_field_walks e fs :
  (forall k v, match_fields fs [] (bs "Name") k v = NoMatch) ->
  forall ns ps (p : interp_flds (with_name fs)),
  option_map rest (walks e (with_name fs) ps ns p) = walks e fs ps ns (rest p).
Proof.
  intros Hno. induction ns as [|n ns IH]; intros ps p; [reflexivity|].
  rewrite !walks_cons, <- (name_field_walk e fs Hno n ps p).
  destruct (d_walk (decode e n) (with_name fs) ps p) as [p'|]; cbn [option_map bind]; [apply IH | reflexivity].
Qed.

Lemma with_name_struct e fs nm k p :
  (forall k v, match_fields fs [] (bs "Name") k v = NoMatch) ->
  option_map rest (unmarshal e (TStruct [] (with_name fs)) (Elem nm k) p) =
  unmarshal e (TStruct [] fs) (Elem nm k) (rest p).
Proof.
  intros H. rewrite (unmarshal_struct e [] (with_name fs)), (unmarshal_struct e [] fs). cbn [null negb andb].
  apply name_field_walks. exact H.
Qed.

Lemma message_set_no_name k v : match_fields MessageSet_fields [] (bs "Name") k v = NoMatch.
Proof. reflexivity. Qed.

Lemma message_set_decode e nm kids :
  d_msgset (decode e (Elem nm kids)) MessageSet_fields =
  match solid kids with
  | [Elem vname k] =>
      option_map (pair vname) (unmarshal e MessageSet_ty (Elem vname k) (zero MessageSet_ty))
  | _ => None
  end.
Proof.
  rewrite msgset_elem. destruct (solid kids) as [|[vn k|t|] [|n2 r]]; try reflexivity.
  pose proof (with_name_struct e MessageSet_fields vn k ([], zero_flds MessageSet_fields) message_set_no_name) as W.
  change (@rest MessageSet_fields ([], zero_flds MessageSet_fields)) with (zero MessageSet_ty) in W.
  change (unmarshal e MessageSet_ty (Elem vn k) (zero MessageSet_ty))
    with (unmarshal e (TStruct [] MessageSet_fields) (Elem vn k) (zero MessageSet_ty)).
  rewrite <- W. fold (with_name MessageSet_fields).
  destruct (unmarshal e (TStruct [] (with_name MessageSet_fields)) (Elem vn k) _); reflexivity.
Qed.

Lemma message_set_name_of n v : MessageSet_Name (MessageSet_of (n, v)) = n.
Proof. destruct v as (?&?&?&?&?&?&?&?&?&?&[]). reflexivity. Qed.

Lemma message_set_iff e nm kids s :
  option_map MessageSet_of (d_msgset (decode e (Elem nm kids)) MessageSet_fields) = Some s <->
  message_set_reads e s (Elem nm kids).
Proof.
  rewrite message_set_decode. unfold message_set_reads. split.
  - destruct (solid kids) as [|[vn k|t|] [|n2 r]] eqn:Es; try discriminate.
    destruct (unmarshal e MessageSet_ty (Elem vn k) (zero MessageSet_ty)) as [v|] eqn:Eu; [|discriminate].
    intros H. assert (H' : MessageSet_of (vn, v) = s) by (cbn [option_map] in H; congruence).
    assert (En : MessageSet_Name s = vn) by (rewrite <- H'; apply message_set_name_of).
    exists nm, kids, k. rewrite En. split; [reflexivity|]. split; [exact Es|]. rewrite Eu. exact H.
  - intros (o & kids' & k & E & Es & H). injection E as <- <-. rewrite Es.
    destruct (unmarshal e MessageSet_ty _ _) as [v|]; [|discriminate]. exact H.
Qed.

Lemma msgset_step_iff e nm k v w :
  msgset_step e MessageSet_fields (Elem nm k) nm v = Some w <->
  exists x, w = v ++ [x] /\ d_msgset (decode e (Elem nm k)) MessageSet_fields = Some x.
Proof.
  unfold msgset_step. destruct (d_msgset _ _) as [x|]; cbn [option_map].
  - split; [intros H; injection H as <-; eauto | intros (y & -> & H); congruence].
  - split; [discriminate | intros (y & _ & H); discriminate].
Qed.

Lemma message_set_of_inj a b : MessageSet_of a = MessageSet_of b -> a = b.
Proof.
  destruct a as (?&?&?&?&?&?&?&?&?&?&?&[]), b as (?&?&?&?&?&?&?&?&?&?&?&[]). intros H.
  cbn [MessageSet_of] in H. injection H as -> -> -> -> -> -> -> -> -> -> ->. reflexivity.
Qed.

Lemma message_set_list_reads e nm kids l :
  option_map (map MessageSet_of) (unmarshal e MessageSetList_ty (Elem nm kids) (zero MessageSetList_ty)) = Some l <->
  Forall2 (message_set_reads e) l (solid kids).
Proof.
  unfold MessageSetList_ty. rewrite unmarshal_msgsets. cbn [zero].
  pose proof (steps_append e (msgset_step e MessageSet_fields)
    (fun x n => d_msgset (decode e n) MessageSet_fields = Some x) (msgset_step_iff e)
    ltac:(intros; discriminate) ltac:(intros; discriminate) kids []) as S.
  assert (L1 : forall x n, d_msgset (decode e n) MessageSet_fields = Some x -> message_set_reads e (MessageSet_of x) n).
  { intros x n H. destruct n as [n k|t|]; try discriminate. apply message_set_iff. rewrite H. reflexivity. }
  assert (L2 : forall s n, message_set_reads e s n ->
    exists x, MessageSet_of x = s /\ d_msgset (decode e n) MessageSet_fields = Some x).
  { intros s n H. pose proof H as H'. destruct H' as (o & k & st & -> & _). apply message_set_iff in H.
    destruct (d_msgset _ _) as [x|]; [|discriminate]. exists x. split; [cbn [option_map] in H; congruence | reflexivity]. }
  rewrite (Forall2_lift MessageSet_of _ _ L1 L2). split.
  - intros H. destruct (steps _ _ _ _) as [v|] eqn:E; [|discriminate]. cbn [option_map] in H. injection H as <-.
    destruct (proj1 (S v) eq_refl) as (l & -> & E'). exists l. split; [reflexivity | exact E'].
  - intros (xs & <- & H). 
    match goal with |- option_map _ ?o = _ => assert (Eo : o = Some xs) end.
    { apply S. exists xs. split; [reflexivity | exact H]. }
    rewrite Eo. reflexivity.
Qed.

Lemma trim_v1_spec stem : trim_v1 (stem ++ bs "V1") = stem.
Proof.
  unfold trim_v1. rewrite app_length. cbn [length].
  replace (length stem + length (bs "V1") - 2) with (length stem) by (cbn; lia).
  rewrite firstn_app, firstn_all, Nat.sub_diag. apply app_nil_r.
Qed.

Definition msgset_enc (m : str * interp_flds MessageSet_fields) : option (list node) :=
  let '(nm, r) := m in
  if not_v1 nm || null (trim_v1 nm) then None
  else
    c <- struct_cmds MessageSet_fields [] r ;;
    Some [Elem (trim_v1 nm) [Elem nm (Elem (bs "Name") (text_kids nm) :: content c)]].

Lemma message_set_encode s ns : msgset_enc (MessageSet_to s) = Some ns ->
  exists n, ns = [n] /\ message_set_element s n.
Proof.
  unfold msgset_enc, MessageSet_to. destruct (not_v1 (MessageSet_Name s) || null (trim_v1 (MessageSet_Name s))) eqn:E; [discriminate|].
  apply good_set_name_iff in E as (stem & Hs & En).
  destruct (struct_cmds _ _ _) as [c|]; [|discriminate]. cbn [bind]. intros H. injection H as <-.
  eexists. split; [reflexivity|]. exists stem.
  assert (Et : trim_v1 (MessageSet_Name s) = stem) by (rewrite En; apply trim_v1_spec).
  rewrite Et. eexists. split; [exact En | reflexivity].
Qed.

Lemma message_set_list_encode l :
  (Forall (fun s => message_set_name (MessageSet_Name s)) l <->
   exists n, encode_as MessageSetList_ty (map MessageSet_to l) = Some [n]) /\
  (forall ns, encode_as MessageSetList_ty (map MessageSet_to l) = Some ns ->
   exists kids, ns = [Elem (bs "MSGSETLIST") kids] /\ Forall2 message_set_element l kids).
Proof.
  assert (E0 : encode_as MessageSetList_ty (map MessageSet_to l) =
    bind (concat_opt msgset_enc (map MessageSet_to l)) (fun k => Some [Elem (bs "MSGSETLIST") k])) by reflexivity.
  rewrite E0. clear E0. split.
  - split.
    + intros H. assert (Hs : exists k, concat_opt msgset_enc (map MessageSet_to l) = Some k).
      { induction H as [|s l Hs _ [k IH]]; [exists []; reflexivity|]. cbn [map concat_opt]. rewrite IH.
        assert (Hx : exists x, msgset_enc (MessageSet_to s) = Some x).
        { unfold msgset_enc, MessageSet_to. apply good_set_name_iff in Hs. rewrite Hs.
          match goal with |- context [struct_cmds MessageSet_fields [] ?v] =>
            destruct (marshal_some MessageSet_ty false (bs "x") false v) as [ns E]; [vm_compute; reflexivity|];
            unfold MessageSet_ty in E; cbn [marshal] in E; destruct (struct_cmds MessageSet_fields [] v); [|discriminate] end.
          cbn [bind]. eauto. }
        destruct Hx as [x ->]. cbn [bind]. eauto. }
      destruct Hs as [k ->]. cbn [bind]. eauto.
    + intros [n H]. destruct (concat_opt _ _) as [k|] eqn:E; [|discriminate]. clear H.
      revert k E. induction l as [|s l IH]; intros k E; [constructor|]. cbn [map concat_opt] in E.
      destruct (msgset_enc (MessageSet_to s)) as [x|] eqn:Ex; [|discriminate]. cbn [bind] in E.
      destruct (concat_opt _ _) as [y|]; [|discriminate]. constructor; [|eapply IH; reflexivity].
      unfold msgset_enc, MessageSet_to in Ex. apply good_set_name_iff. unfold good_set_name.
      destruct (not_v1 _ || _); [discriminate | reflexivity].
  - intros ns H. destruct (concat_opt _ _) as [k|] eqn:E; [|discriminate]. cbn [bind] in H. injection H as <-.
    exists k. split; [reflexivity|].
    revert k E. induction l as [|s l IH]; intros k E; cbn [map concat_opt] in E; [injection E as <-; constructor|].
    destruct (msgset_enc (MessageSet_to s)) as [x|] eqn:Ex; [|discriminate]. cbn [bind] in E.
    destruct (concat_opt _ _) as [y|]; [|discriminate]. cbn [bind] in E. injection E as <-.
    apply message_set_encode in Ex as (n & -> & Hn). constructor; [exact Hn|]. apply IH. reflexivity.
Qed.

Lemma message_set_list_round e l n : representable e MessageSetList_ty (map MessageSet_to l) ->
  encode_as MessageSetList_ty (map MessageSet_to l) = Some [n] ->
  option_map (map MessageSet_of) (unmarshal e MessageSetList_ty n (zero MessageSetList_ty)) = Some l.
Proof.
  intros Hr E. apply (representable_rt e _ (bs "MSGSETLIST")) in Hr; [|vm_compute; reflexivity].
  destruct round_trip_all as [R0 _]. destruct (R0 MessageSetList_ty) as [R' _].
  destruct (R' e false (bs "MSGSETLIST") false (map MessageSet_to l) [n] ltac:(vm_compute; reflexivity) Hr E) as [_ R2].
  cbn [map run_all] in R2. destruct (unmarshal e MessageSetList_ty n (zero MessageSetList_ty)) as [v|]; [|discriminate].
  cbn [bind] in R2. assert (v = map MessageSet_to l) by congruence. subst v. cbn [option_map]. f_equal. rewrite map_map.
  rewrite <- (map_id l) at 2. apply map_ext. exact MessageSet_iso.
Qed.

(** ** The common part of an item *)

Lemma first_field x nm om t fs force name o (v : interp_flds (FCons [] nm om t fs)) ns :
  is_nil t (fst v) = false ->
  marshal (TStruct x (FCons [] nm om t fs)) force name o v = Some ns ->
  exists nodes more, marshal t false nm om (fst v) = Some nodes /\
    ns = [Elem (if force || null x then name else x) (nodes ++ more)].
Proof.
  intros Hnil H. cbn [marshal struct_cmds common_prefix length Nat.sub repeat app skipn map] in H. rewrite Hnil in H.
  destruct (marshal t false nm om (fst v)) as [nodes|]; [|discriminate]. cbn [bind] in H.
  destruct (struct_cmds fs [] (snd v)) as [c|] eqn:E; [|discriminate]. cbn [bind] in H. injection H as <-.
  exists nodes. pose proof (struct_cmds_length _ _ _ _ E) as Hlen.
  destruct (build c) as [|f r] eqn:Eb; [discriminate Hlen|]. exists f. split; [reflexivity|].
  unfold content. rewrite (build_wholes nodes c f r Eb). reflexivity.
Qed.
