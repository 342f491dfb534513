(** What is read is no larger than what it is read from. *)
From Coq Require Import QArith Lia.
From Verif Require Import GoStr SpecStr GoStrFacts GoTime Types Enums EnumTables Records Common Messages Codec CodecFacts Schema SchemaInv
  Document SpecDocument DocumentFacts SetsFacts FilingFacts SpecXml SpecHeader SpecMarkup SpecSgml MarkupDocs SgmlDocs CodecSim TypesFacts Headers HeaderFacts WrittenHeaderFacts SgmlRead Wire SpecSize.
Close Scope Q_scope.

(** The bytes a tree needs at least. *)
Fixpoint node_size (n : node) : nat :=
  match n with
  | Elem nm kids => 2 + length nm + total (map node_size kids)
  | Text s => length s
  | Misc => 0
  end.
Definition nodes_size (l : list node) : nat := total (map node_size l).

Lemma total_app a b : total (a ++ b) = total a + total b.
Proof. induction a as [|x a IH]; cbn [app total fold_right]; [reflexivity|]. fold total. unfold total in *. cbn. lia. Qed.

Lemma nodes_cons n l : nodes_size (n :: l) = node_size n + nodes_size l.
Proof. reflexivity. Qed.

Lemma size_elem nm kids : node_size (Elem nm kids) = 2 + length nm + nodes_size kids.
Proof. reflexivity. Qed.

(** ** Text *)

Lemma utf8_char_short n : length (utf8_char n) <= 4.
Proof. unfold utf8_char. repeat match goal with |- context [if ?b then _ else _] => destruct b end; cbn; lia. Qed.

Lemma numbered_short n : length (numbered n) <= 4.
Proof. unfold numbered. destruct (_ && _); [cbn; lia|apply utf8_char_short]. Qed.

Lemma reference_short r u : reference r u -> length u <= length r.
Proof.
  destruct 1 as [| | | | |ds Hd _ _|ds Hd _ _]; try (cbn; lia).
  - pose proof (numbered_short (value_in 10 ds)) as H. destruct ds as [|d ds]; [contradiction|]. revert H.
    generalize (length (numbered (value_in 10 (d :: ds)))). intros k H. rewrite !app_length. cbn. lia.
  - pose proof (numbered_short (value_in 16 ds)) as H. destruct ds as [|d ds]; [contradiction|]. revert H.
    generalize (length (numbered (value_in 16 (d :: ds)))). intros k H. rewrite !app_length. cbn. lia.
Qed.

Lemma literal_short b ok raw t : literal b ok raw t -> length t <= length raw.
Proof.
  induction 1; cbn [length] in *; try lia.
  rewrite !app_length. match goal with H : reference _ _ |- _ => apply reference_short in H end. lia.
Qed.

Lemma loose_short raw t : loose raw t -> length t <= length raw.
Proof.
  induction 1; cbn [length] in *; try lia.
  rewrite !app_length. match goal with H : reference _ _ |- _ => apply reference_short in H end. lia.
Qed.

Lemma qualified_short nm p l : qualified nm p l -> length l <= length nm.
Proof. intros [(_ & -> & _)|[-> _]]; [lia|]. rewrite !app_length. lia. Qed.

(** ** Documents *)

Lemma markup_short : (forall n b, markup n b -> node_size n <= length b) /\
  (forall k b, markups k b -> nodes_size k <= length b).
Proof.
  apply markup_both; intros;
    repeat match goal with H : qualified _ _ _ |- _ => apply qualified_short in H
           | H : text_spells _ _ |- _ => destruct H as [H _]; apply literal_short in H
           | H : cdata_spells _ _ |- _ => destruct H as [H _]; apply literal_short in H end;
    rewrite ?size_elem, ?nodes_cons, ?app_length; cbn [node_size]; cbn [nodes_size total map fold_right] in *;
    cbn [length bs]; try (cbn; lia).
Qed.

Lemma sgml_short : (forall n e b, sgml n e b -> node_size n <= length b) /\
  (forall k o b, sgmls k o b -> nodes_size k <= length b).
Proof.
  apply sgml_both; intros;
    repeat match goal with H : qualified _ _ _ |- _ => apply qualified_short in H
           | H : loose_text _ _ |- _ => destruct H as [H _]; apply loose_short in H
           | H : cdata_spells _ _ |- _ => destruct H as [H _]; apply literal_short in H end;
    rewrite ?size_elem, ?nodes_cons, ?app_length in *; cbn [node_size]; cbn [nodes_size total map fold_right] in *;
    cbn [length bs]; try (cbn; lia).
Qed.

Lemma document_short s v n : read_document s = Some (v, n) -> node_size n <= length s.
Proof.
  intros H. destruct (guess_xml s) eqn:Eg.
  - apply read_document_iff in H; [|rewrite <- guess_sgml_iff; congruence].
    destruct H as (g1 & decl & g2 & inst & g3 & b & rest & kids & -> & _ & _ & _ & _ & _ & _ & _ & Hm).
    apply markup_short in Hm. rewrite !app_length. lia.
  - apply guess_sgml_iff in Eg. apply read_sgml_document_iff in H; [|exact Eg].
    destruct H as (e & h & g & b & rest & kids & -> & _ & _ & _ & _ & _ & Hm).
    apply sgml_short in Hm. rewrite !app_length. lia.
Qed.

(** ** Values *)

(** Pointers and slices directly in one another. *)
Fixpoint wraps (t : ty) : nat :=
  match t with
  | TPtr t => S (wraps t)
  | TSlice t => S (wraps t)
  | TAlts a => S (wraps_alts a)
  | _ => 0
  end
with wraps_alts (a : alts) : nat :=
  match a with
  | ANil => 0
  | ACons _ _ t a => Nat.max (wraps t) (wraps_alts a)
  end.

(** No field has more than two of them. *)
Fixpoint flat (t : ty) : bool :=
  match t with
  | TLeaf _ => true
  | TStruct _ fs => flat_flds fs
  | TPtr t => flat t
  | TSlice t => flat t
  | TCustom _ fs => flat_flds fs
  | TAlts a => flat_alts a
  | TAltList _ a => (wraps_alts a <=? 1) && flat_alts a
  | TMsgSets fs => flat_flds fs
  end
with flat_flds (fs : flds) : bool :=
  match fs with
  | FNil => true
  | FCons _ _ _ t fs => (wraps t <=? 2) && flat t && flat_flds fs
  end
with flat_alts (a : alts) : bool :=
  match a with
  | ANil => true
  | ACons _ _ t a => flat t && flat_alts a
  end.

Lemma zero_small : (forall t, size t (zero t) = 0) /\ (forall fs, size_flds fs (zero_flds fs) = 0) /\ (forall a : alts, True).
Proof.
  apply schema_ind; try (intros; exact I); cbn; intros; auto.
  - destruct l; reflexivity.
  - lia.
Qed.

Lemma trim_short s : length (trim_space s) <= length s.
Proof.
  destruct (proj1 (trim_space_iff s (trim_space s)) eq_refl) as (l & r & _ & _ & E & _).
  apply (f_equal (@length _)) in E. rewrite !app_length in E. lia.
Qed.

Lemma leaf_short e l s v : leaf_unmarshal e l s = Some v -> leaf_size l v <= length s.
Proof.
  destruct l; cbn [leaf_unmarshal leaf_size]; intros H; try lia; injection H as <-; apply trim_short.
Qed.

Lemma text_short kids : length (text_of kids) <= nodes_size kids.
Proof.
  induction kids as [|[nm k|s|] kids IH]; cbn [text_of]; rewrite ?nodes_cons; [cbn; lia|lia| |cbn [node_size]; lia].
  rewrite app_length. cbn [node_size]. lia.
Qed.

Lemma solid_short kids : nodes_size (solid kids) <= nodes_size kids.
Proof.
  unfold solid. induction kids as [|n kids IH]; [cbn; lia|]. cbn [filter].
  destruct (match n with Text s => negb (blank s) | _ => true end); rewrite ?nodes_cons; lia.
Qed.

Definition value_small (k : decoder) (b : nat) : Prop :=
  forall t v v', flat t = true -> k t v = Some v' -> size t v' + 2 <= size t v + wraps t + b.

Lemma match_alts_small (k : decoder) b : value_small k b -> forall a nm v, flat_alts a = true ->
  match_alts a nm k = Some v -> size_alts a v + 2 <= wraps_alts a + b.
Proof.
  intros Hk. induction a as [|rd wr t a IH]; intros nm v Hf H; [destruct v|]. cbn [match_alts] in H.
  cbn [flat_alts] in Hf. apply andb_prop in Hf as [Ht Ha]. cbn [wraps_alts].
  destruct (str_eqb rd nm).
  - destruct (k t (zero t)) as [x|] eqn:E; [|discriminate]. injection H as <-. cbn.
    apply Hk in E; [|exact Ht]. rewrite (proj1 zero_small) in E. lia.
  - destruct (match_alts a nm k) as [x|] eqn:E; [|discriminate]. injection H as <-. cbn. specialize (IH _ _ Ha E). lia.
Qed.

Lemma match_fields_small nm (k : decoder) b : value_small k b -> forall fs ps v v', flat_flds fs = true ->
  match_fields fs ps nm k v = Hit (Some v') -> size_flds fs v' <= size_flds fs v + b.
Proof.
  intros Hk. induction fs as [|qs n om t fs IH]; intros ps v v' Hf H; [discriminate|].
  cbn [flat_flds] in Hf. apply andb_prop in Hf as [Hf Hfs]. apply andb_prop in Hf as [Hw Ht]. apply Nat.leb_le in Hw.
  destruct v as [x y].
  assert (Hnext : found_map (pair x) (match_fields fs ps nm k y) = Hit (Some v') ->
            size_flds (FCons qs n om t fs) v' <= size_flds (FCons qs n om t fs) (x, y) + b).
  { intros E. destruct (match_fields fs ps nm k y) as [| |[r|]] eqn:Em; try discriminate. injection E as <-.
    specialize (IH _ _ _ Hfs Em). cbn [size_flds fst snd]. lia. }
  cbn [match_fields fst snd] in H. destruct (strip_prefix ps qs) as [[|p q]|].
  - destruct (str_eqb n nm); [|exact (Hnext H)].
    destruct (k t x) as [x'|] eqn:Ex; [|discriminate]. injection H as <-.
    apply Hk in Ex; [|exact Ht]. cbn [size_flds fst snd]. lia.
  - destruct (str_eqb p nm); [discriminate | exact (Hnext H)].
  - exact (Hnext H).
Qed.

Lemma match_custom_small nm (k : decoder) b : value_small k b -> forall fs v v', flat_flds fs = true ->
  match_custom fs nm k v = Some v' -> size_flds fs v' <= size_flds fs v + b.
Proof.
  intros Hk. induction fs as [|qs n om t fs IH]; intros v v' Hf H; [discriminate|].
  cbn [flat_flds] in Hf. apply andb_prop in Hf as [Hf Hfs]. apply andb_prop in Hf as [Hw Ht]. apply Nat.leb_le in Hw.
  destruct v as [x y]. cbn [match_custom fst snd] in H.
  destruct (match t with TAlts a => has_alt a nm | _ => str_eqb n nm end).
  - destruct (k t x) as [x'|] eqn:Ex; [|discriminate]. injection H as <-.
    apply Hk in Ex; [|exact Ht]. cbn [size_flds fst snd]. lia.
  - destruct (match_custom fs nm k y) as [y'|] eqn:Ey; [|discriminate]. injection H as <-.
    specialize (IH _ _ Hfs Ey). cbn [size_flds fst snd]. lia.
Qed.

Lemma run_all_small {A B} (m : A -> nat) (f : B -> A -> option A) (w : B -> nat) l :
  Forall (fun x => forall v v', f x v = Some v' -> m v' <= m v + w x) l ->
  forall v v', run_all (map f l) v = Some v' -> m v' <= m v + total (map w l).
Proof.
  induction 1 as [|x l Hx _ IH]; intros v v' H; [injection H as <-; cbn; lia|].
  cbn [map run_all] in H. destruct (f x v) as [u|] eqn:E; [|discriminate]. cbn [bind] in H.
  apply IH in H. apply Hx in E. change (total (map w (x :: l))) with (w x + total (map w l)). lia.
Qed.

(** The same without the name of the element. *)
Definition content_size (n : node) : nat := match n with Elem _ kids => 2 + nodes_size kids | _ => 0 end.

Lemma content_le n : content_size n <= node_size n.
Proof. destruct n as [nm kids| |]; [rewrite size_elem|..]; cbn [content_size]; lia. Qed.

Definition small (e : env) (n : node) : Prop :=
  value_small (d_value (decode e n)) (content_size n) /\
  (forall fs ps v v', flat_flds fs = true -> d_walk (decode e n) fs ps v = Some v' ->
     size_flds fs v' <= size_flds fs v + node_size n) /\
  (forall fs r, flat_flds fs = true -> d_msgset (decode e n) fs = Some r ->
     S (length (fst r) + size_flds fs (snd r)) <= node_size n).

Lemma walks_small e kids : Forall (small e) kids -> forall fs ps v v', flat_flds fs = true ->
  walks e fs ps kids v = Some v' -> size_flds fs v' <= size_flds fs v + nodes_size kids.
Proof.
  intros H fs ps v v' Hf. unfold walks, nodes_size. apply (run_all_small (size_flds fs)). revert H. apply Forall_impl.
  intros n (_ & H & _) w w'. exact (H fs ps w w' Hf).
Qed.

Lemma steps_small {A} e (m : A -> nat) (f : node -> str -> A -> option A) kids :
  Forall (fun n => forall nm k v v', n = Elem nm k -> f n nm v = Some v' -> m v' <= m v + node_size n) kids ->
  forall v v', steps e f kids v = Some v' -> m v' <= m v + nodes_size kids.
Proof.
  intros H. unfold steps, nodes_size. apply run_all_small. revert H. apply Forall_impl.
  intros n Hn v v' E. destruct n as [nm k|s|]; cbn [token_step] in E.
  - exact (Hn _ _ _ _ eq_refl E).
  - destruct (blank s); [injection E as <-; lia | discriminate].
  - discriminate.
Qed.

Lemma total_snoc {A} (f : A -> nat) l x : total (map f (l ++ [x])) = total (map f l) + f x.
Proof. rewrite map_app, total_app. cbn. lia. Qed.

Theorem decode_small e n : small e n.
Proof.
  induction n as [nm kids Hkids|s|] using node_ind'.
  2: { split; [intros t v v' _ H; discriminate|]. split; [intros fs ps v v' Hv [= <-]; lia | discriminate]. }
  2: { split; [intros t v v' _ H; discriminate|]. split; [intros fs ps v v' Hv [= <-]; lia | discriminate]. }
  assert (Hv : value_small (d_value (decode e (Elem nm kids))) (2 + nodes_size kids)).
  { unfold value_small. change (d_value (decode e (Elem nm kids))) with (fun t v => unmarshal e t (Elem nm kids) v).
    cut ((forall t v v', flat t = true -> unmarshal e t (Elem nm kids) v = Some v' ->
            size t v' + 2 <= size t v + wraps t + (2 + nodes_size kids)) /\ (forall fs : flds, True) /\
         (forall a v, flat_alts a = true -> match_alts a nm (d_value (decode e (Elem nm kids))) = Some v ->
            size_alts a v + 2 <= wraps_alts a + (2 + nodes_size kids))); [intros H; apply H|].
    apply schema_ind.
    - intros l v v' _ H. rewrite unmarshal_leaf in H. apply leaf_short in H. pose proof (text_short kids). cbn [size wraps]. lia.
    - intros x fs _ v v' Hf H. rewrite unmarshal_struct in H. destruct (_ && _); [discriminate|].
      pose proof (walks_small e kids Hkids fs [] v v' Hf H). cbn [size wraps]. lia.
    - intros t IHt v v' Hf H. rewrite unmarshal_ptr in H.
      destruct (unmarshal e t (Elem nm kids) _) as [w|] eqn:E; [|discriminate]. injection H as <-.
      apply IHt in E; [|exact Hf]. cbn [size wraps]. destruct v as [v|]; [lia|]. rewrite (proj1 zero_small) in E. lia.
    - intros t IHt v v' Hf H. rewrite unmarshal_slice in H.
      destruct (unmarshal e t (Elem nm kids) _) as [w|] eqn:E; [|discriminate]. injection H as <-.
      apply IHt in E; [|exact Hf]. rewrite (proj1 zero_small) in E. cbn [size wraps]. rewrite total_snoc. lia.
    - intros x fs _ v v' Hf H. rewrite unmarshal_custom in H. cbn [size wraps].
      enough (size_flds fs v' <= size_flds fs v + nodes_size kids) by lia. revert H. apply (steps_small e (size_flds fs)).
      revert Hkids. apply Forall_impl. intros n (Hn & _) m k w w' -> E. unfold cust_step in E.
      apply (match_custom_small m _ _ Hn fs w w' Hf) in E. pose proof (content_le (Elem m k)). lia.
    - intros a IHa v v' Hf H. rewrite unmarshal_alts in H.
      destruct (match_alts a nm _) as [w|] eqn:E; [|discriminate]. injection H as <-.
      specialize (IHa _ Hf eq_refl). cbn [size wraps]. rewrite total_snoc. lia.
    - intros x a _ v v' Hf H. rewrite unmarshal_altlist in H. cbn [size wraps].
      cbn [flat] in Hf. apply andb_prop in Hf as [Hw Hf]. apply Nat.leb_le in Hw.
      enough (total (map (fun x => S (size_alts a x)) v') <= total (map (fun x => S (size_alts a x)) v) + nodes_size kids) by lia.
      revert H. apply (steps_small e (fun v => total (map (fun x => S (size_alts a x)) v))).
      revert Hkids. apply Forall_impl. intros n (Hn & _) m k w w' -> E. unfold alt_step in E.
      destruct (match_alts a m _) as [u|] eqn:Eu; [|discriminate]. injection E as <-.
      apply (match_alts_small _ _ Hn a m u Hf) in Eu. rewrite total_snoc.
      pose proof (content_le (Elem m k)). lia.
    - intros fs _ v v' Hf H. rewrite unmarshal_msgsets in H. cbn [size wraps].
      set (g := fun x : str * interp_flds fs => S (length (fst x) + size_flds fs (snd x))).
      enough (total (map g v') <= total (map g v) + nodes_size kids) by lia. revert H.
      apply (steps_small e (fun v => total (map g v))).
      revert Hkids. apply Forall_impl. intros n (_ & _ & Hn) m k w w' -> E. unfold msgset_step in E.
      destruct (d_msgset _ fs) as [u|] eqn:Eu; [|discriminate]. injection E as <-.
      apply Hn in Eu; [|exact Hf]. rewrite total_snoc. unfold g at 2. lia.
    - exact I.
    - intros; exact I.
    - intros v. destruct v.
    - intros rd wr t IHt a IHa v Hf H. cbn [match_alts] in H. cbn [flat_alts] in Hf. apply andb_prop in Hf as [Ht Ha].
      cbn [wraps_alts]. destruct (str_eqb rd nm).
      + destruct (d_value (decode e (Elem nm kids)) t (zero t)) as [w|] eqn:E; [|discriminate]. injection H as <-.
        cbn [size_alts]. apply IHt in E; [|exact Ht]. rewrite (proj1 zero_small) in E. lia.
      + destruct (match_alts a nm _) as [w|] eqn:E; [|discriminate]. injection H as <-.
        cbn [size_alts]. specialize (IHa _ Ha eq_refl). lia. }
  assert (Hs : value_small (d_value (decode e (Elem nm kids))) (node_size (Elem nm kids))).
  { intros t v v' Hf H. specialize (Hv t v v' Hf H). rewrite size_elem. lia. }
  split; [exact Hv|]. split.
  - intros fs ps v v' Hf H. rewrite walk_elem in H.
    destruct (match_fields fs ps nm (d_value (decode e (Elem nm kids))) v) as [| |r] eqn:E.
    + injection H as <-. lia.
    + apply (walks_small e kids Hkids _ _ _ _ Hf) in H. rewrite size_elem. lia.
    + subst r. exact (match_fields_small nm _ _ Hs fs ps v v' Hf E).
  - intros fs r Hf H. rewrite msgset_elem in H. destruct (solid kids) as [|[vn k| |] [|]] eqn:E; try discriminate.
    assert (Hin : In (Elem vn k) kids).
    { apply (incl_filter (fun n => match n with Text s => negb (blank s) | _ => true end) kids). fold (solid kids).
      rewrite E. left. reflexivity. }
    pose proof (solid_short kids) as Hl. rewrite E in Hl.
    change (nodes_size [Elem vn k]) with (node_size (Elem vn k) + 0) in Hl.
    destruct (proj1 (Forall_forall _ _) Hkids _ Hin) as (Hk & _).
    destruct (unmarshal e _ (Elem vn k) _) as [w|] eqn:Ew; [|discriminate]. injection H as <-. cbn [fst snd].
    apply Hk in Ew; [|exact Hf]. cbn [size size_flds wraps fst snd content_size leaf_size length] in Ew.
    rewrite (proj1 (proj2 zero_small)) in Ew. destruct w as [w1 w2]. cbn [fst snd] in *. rewrite size_elem in *. lia.
Qed.

Theorem unmarshal_small e t n v : flat t = true -> wraps t = 0 -> unmarshal e t n (zero t) = Some v ->
  S (size t v) <= node_size n.
Proof.
  intros Hf Hw H. apply (proj1 (decode_small e n)) in H; [|exact Hf]. rewrite (proj1 zero_small), Hw in H.
  pose proof (content_le n). lia.
Qed.

(** ** Responses *)

Lemma message_small e set n m : decode_message e set n = Some m -> S (message_size m) <= node_size n.
Proof.
  intros H. destruct n as [nm kids|s|]; [|discriminate H|discriminate H].
  unfold decode_message in H. cbv zeta in H.
  assert (G : forall R t (of : interp t -> R) (to : R -> interp t) (mk : R -> Message),
    (forall v, to (of v) = v) -> flat t = true -> wraps t = 0 -> (forall x, message_size (mk x) = size t (to x)) ->
    option_map (fun v => mk (of v)) (unmarshal e t (Elem nm kids) (zero t)) = Some m -> S (message_size m) <= node_size (Elem nm kids)).
  { intros R t of to mk Hi Hf Hw Hm E. destruct (unmarshal e t (Elem nm kids) (zero t)) as [v|] eqn:Eu; [|discriminate].
    cbn [option_map] in E. assert (Em : mk (of v) = m) by congruence. rewrite <- Em, Hm, Hi.
    exact (unmarshal_small e t _ v Hf Hw Eu). }
  destruct set; try discriminate H;
    repeat match type of H with context [if ?b then _ else _] => destruct b; [|try discriminate H] end.
  all: first [ refine (G _ _ _ _ MsgAcctInfoResponse AcctInfoResponse_inv _ _ _ H)
             | refine (G _ _ _ _ MsgStatementResponse StatementResponse_inv _ _ _ H)
             | refine (G _ _ _ _ MsgCCStatementResponse CCStatementResponse_inv _ _ _ H)
             | refine (G _ _ _ _ MsgInvStatementResponse InvStatementResponse_inv _ _ _ H)
             | refine (G _ _ _ _ MsgSecListResponse SecListResponse_inv _ _ _ H)
             | refine (G _ _ _ _ MsgSecurityList SecurityList_inv _ _ _ H)
             | refine (G _ _ _ _ MsgProfileResponse ProfileResponse_inv _ _ _ H) ];
    try (intros; reflexivity); vm_compute; reflexivity.
Qed.

Lemma messages_small e set kids ms : decode_messages e set kids = Some ms -> messages_size ms <= nodes_size kids.
Proof.
  revert ms. induction kids as [|n kids IH]; intros ms H; [injection H as <-; cbn; lia|].
  cbn [decode_messages] in H. destruct (decode_message e set n) as [m|] eqn:Em; [|discriminate]. cbn [bind] in H.
  destruct (decode_messages e set kids) as [l|] eqn:El; [|discriminate]. injection H as <-.
  specialize (IH _ eq_refl). apply message_small in Em. rewrite nodes_cons.
  change (messages_size (m :: l)) with (S (message_size m) + messages_size l). lia.
Qed.

Definition slots_size (s : Slots) : nat := total (map (fun p => messages_size (snd p)) (response_sets s)).

Lemma messages_app a b : messages_size (a ++ b) = messages_size a + messages_size b.
Proof. unfold messages_size. rewrite map_app. apply total_app. Qed.

Lemma append_size set ms s : slots_size (append_to set ms s) <= slots_size s + messages_size ms.
Proof.
  destruct s, set; unfold slots_size; cbn [append_to response_sets map snd total fold_right Document.sl_signup Document.sl_bank Document.sl_creditcard Document.sl_loan Document.sl_invstmt
    Document.sl_interxfer Document.sl_wirexfer Document.sl_billpay Document.sl_email Document.sl_seclist Document.sl_presdir Document.sl_presdlv Document.sl_prof Document.sl_image]; rewrite ?messages_app; lia.
Qed.

Lemma sets_small e kids : forall s s', decode_sets e kids s = Some s' -> slots_size s' <= slots_size s + nodes_size kids.
Proof.
  induction kids as [|[nm sub|t|] kids IH]; intros s s' H; [injection H as <-; lia| |discriminate|discriminate].
  cbn [decode_sets] in H. destruct (response_set nm) as [set|]; [|discriminate]. cbn [bind] in H.
  destruct (decode_messages e set (solid sub)) as [ms|] eqn:Em; [|discriminate]. cbn [bind] in H.
  apply IH in H. apply messages_small in Em. pose proof (solid_short sub). pose proof (append_size set ms s).
  rewrite nodes_cons, size_elem. lia.
Qed.

Lemma first_elem_short sk x rest : first_elem sk = Some (x, rest) -> node_size x <= nodes_size sk.
Proof.
  intros H. apply first_elem_spec in H as (before & -> & _). unfold nodes_size. rewrite map_app, total_app. cbn. lia.
Qed.

Lemma ofx_small e v n r : decode_ofx e v n = Some r -> response_size r <= node_size n.
Proof.
  intros H. destruct n as [nm kids|s|]; [|discriminate H|discriminate H]. cbn [decode_ofx] in H.
  destruct (str_eqb nm (bs "OFX")); [|discriminate H]. cbn [negb] in H.
  pose proof (solid_short kids) as Hs.
  destruct (solid kids) as [|[sn sk|s|] sets]; try discriminate H.
  destruct (str_eqb sn (msgtype_string (MSignon, Rs))); [|discriminate H]. cbn [negb] in H.
  destruct (first_elem sk) as [[x rest]|] eqn:Ef; [|discriminate H].
  destruct (null (solid rest)); [|discriminate H]. cbn [negb] in H.
  destruct (unmarshal e SignonResponse_ty x (zero SignonResponse_ty)) as [w|] eqn:Eu; [|discriminate H]. cbn [bind] in H.
  destruct (decode_sets e sets no_messages) as [sl|] eqn:Ed; [|discriminate H]. cbn [bind] in H. injection H as <-.
  unfold response_size. cbn [rs_signon rs_slots]. rewrite SignonResponse_inv.
  apply unmarshal_small in Eu; [|reflexivity|reflexivity]. apply first_elem_short in Ef. apply sets_small in Ed.
  fold (slots_size sl). change (slots_size no_messages) with 0 in Ed.
  rewrite nodes_cons, size_elem in Hs. rewrite size_elem. lia.
Qed.

Theorem response_small e s r : decode_response e s = Some r -> response_size r <= length s.
Proof.
  unfold decode_response. destruct (read_document s) as [[v n]|] eqn:E; [|discriminate]. cbn [bind fst snd].
  intros H. apply ofx_small in H. apply document_short in E. lia.
Qed.
