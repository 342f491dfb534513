(** The encoder writes exactly the content SpecContent lists. *)
From Coq Require Import String QArith Lia.
From Verif Require Import GoStr GoNum GoTime Types Enums EnumTables EnumFacts Records Messages Codec CodecFacts Schema Document SpecDocument DocumentFacts SetsFacts SpecContent.
Close Scope Q_scope.
Open Scope list_scope.

(** ** Structs, piece by piece *)

Definition piece : Type := (list str * bool * list node)%type.

Fixpoint pieces (fs : flds) : interp_flds fs -> option (list piece) :=
  match fs return interp_flds fs -> option (list piece) with
  | FNil => fun _ => Some []
  | FCons ps nm om t fs' => fun v =>
      n <- marshal t false nm om (fst v) ;;
      l <- pieces fs' (snd v) ;;
      Some ((ps, match ps with [] => false | _ => is_nil t (fst v) end, n) :: l)
  end.

Inductive step := SOpen (n : str) | SClose | SWholes (ns : list node).

Fixpoint arrange (l : list piece) (stack : list str) : list step :=
  match l with
  | [] => repeat SClose (List.length stack)
  | (ps, skip, ns) :: l' =>
      let k := common_prefix stack ps in
      repeat SClose (List.length stack - k) ++
      (if skip then [] else map SOpen (skipn k ps)) ++
      SWholes ns :: arrange l' (if skip then firstn k ps else ps)
  end.

Definition commands (s : step) : list cmd :=
  match s with SOpen n => [Open n] | SClose => [Close] | SWholes ns => map Whole ns end.

Fixpoint assemble (c : list step) : list (list node) :=
  match c with
  | [] => [[]]
  | SWholes ns :: c' => match assemble c' with f :: r => (ns ++ f) :: r | [] => [] end
  | SOpen n :: c' => match assemble c' with f :: g :: r => (Elem n f :: g) :: r | _ => [] end
  | SClose :: c' => [] :: assemble c'
  end.

Lemma build_commands c : build (flat_map commands c) = assemble c.
Proof.
  induction c as [|[n| |ns] c IH]; cbn [flat_map commands app build assemble]; try (rewrite IH; reflexivity); [reflexivity|].
  rewrite <- IH. generalize (flat_map commands c). intros c'.
  induction ns as [|n ns IHn]; cbn [map app build].
  - destruct (build c'); reflexivity.
  - rewrite IHn. destruct (build c'); reflexivity.
Qed.

Lemma flat_map_repeat n : flat_map commands (repeat SClose n) = repeat Close n.
Proof. induction n; cbn; congruence. Qed.

Lemma flat_map_opens l : flat_map commands (map SOpen l) = map Open l.
Proof. induction l; cbn; congruence. Qed.

Lemma struct_pieces fs : forall s v,
  struct_cmds fs s v = option_map (fun l => flat_map commands (arrange l s)) (pieces fs v).
Proof.
  induction fs as [|ps nm om t fs IH]; intros s v.
  - cbn. rewrite flat_map_repeat. reflexivity.
  - change (struct_cmds (FCons ps nm om t fs) s v) with
      (let k := common_prefix s ps in let skip := is_nil t (fst v) in
       nodes <- marshal t false nm om (fst v) ;;
       rest <- struct_cmds fs (if skip then firstn k ps else ps) (snd v) ;;
       Some (repeat Close (List.length s - k) ++ (if skip then [] else map Open (skipn k ps)) ++ map Whole nodes ++ rest)).
    change (pieces (FCons ps nm om t fs) v) with
      (n <- marshal t false nm om (fst v) ;; l <- pieces fs (snd v) ;;
       Some ((ps, match ps with [] => false | _ => is_nil t (fst v) end, n) :: l)).
    cbv zeta. destruct (marshal t false nm om (fst v)) as [n|]; cbn [bind option_map]; [|reflexivity].
    rewrite IH. destruct (pieces fs (snd v)) as [l|]; cbn [bind option_map]; [|reflexivity].
    f_equal. cbn [arrange]. rewrite !flat_map_app, flat_map_repeat. f_equal.
    cbn [flat_map commands].
    destruct ps as [|p ps].
    + rewrite firstn_nil, skipn_nil. cbn [map flat_map app]. destruct (is_nil t (fst v)); reflexivity.
    + destruct (is_nil t (fst v)); [reflexivity|]. rewrite flat_map_opens. reflexivity.
Qed.

Lemma pieces_nil v : pieces FNil v = Some [].
Proof. reflexivity. Qed.

Lemma pieces_cons ps nm om t fs v vs ns l : marshal t false nm om v = Some ns -> pieces fs vs = Some l ->
  pieces (FCons ps nm om t fs) (v, vs) =
  Some ((ps, match ps with [] => false | _ => is_nil t v end, ns) :: l).
Proof. intros H1 H2. cbn. rewrite H1. cbn [bind]. rewrite H2. reflexivity. Qed.

Definition assembled (l : list piece) : list node := hd [] (assemble (arrange l [])).

Lemma marshal_struct x fs force nm om v l : pieces fs v = Some l ->
  marshal (TStruct x fs) force nm om v = Some [Elem (if force || null x then nm else x) (assembled l)].
Proof.
  intros H. change (marshal (TStruct x fs) force nm om v) with
    (c <- struct_cmds fs [] v ;; Some [Elem (if force || null x then nm else x) (content c)]).
  rewrite struct_pieces, H. cbn [option_map bind]. unfold content. rewrite build_commands. reflexivity.
Qed.

Lemma struct_plain x fs nm om v l k : pieces fs v = Some l -> assembled l = k ->
  null (bs x) = false -> marshal (TStruct (bs x) fs) false nm om v = Some (inside x k).
Proof. intros H <- Hx. rewrite (marshal_struct _ _ _ _ _ _ _ H), Hx. reflexivity. Qed.

Lemma struct_forced x fs om v l k : pieces fs v = Some l -> assembled l = k ->
  marshal (TStruct (bs x) fs) true (bs x) om v = Some (inside x k).
Proof. intros H <-. rewrite (marshal_struct _ _ _ _ _ _ _ H). reflexivity. Qed.

Lemma struct_named fs force nm om v l k : pieces fs v = Some l -> assembled l = k ->
  marshal (TStruct [] fs) force (bs nm) om v = Some (inside nm k).
Proof. intros H <-. rewrite (marshal_struct _ _ _ _ _ _ _ H), orb_true_r. reflexivity. Qed.

(** ** Leaves *)

Lemma leaf_text nm s force : marshal (TLeaf LString) force (bs nm) false s = Some (text nm s).
Proof. reflexivity. Qed.
Lemma leaf_opt_text nm s force : marshal (TLeaf LString) force (bs nm) true s = Some (opt_text nm s).
Proof. destruct s; reflexivity. Qed.
Lemma leaf_uid nm s force : marshal (TLeaf LUID) force (bs nm) false s = Some (text nm s).
Proof. reflexivity. Qed.
Lemma leaf_opt_uid nm s force : marshal (TLeaf LUID) force (bs nm) true s = Some (opt_text nm s).
Proof. destruct s; reflexivity. Qed.
Lemma leaf_curr nm s om force : marshal (TLeaf LCurr) force (bs nm) om s = Some (text nm s).
Proof. destruct om; reflexivity. Qed.
Lemma leaf_number nm z force : marshal (TLeaf LInt) force (bs nm) false z = Some (number nm z).
Proof. reflexivity. Qed.
Lemma leaf_opt_number nm z force : marshal (TLeaf LInt) force (bs nm) true z = Some (opt_number nm z).
Proof. cbn. unfold opt_number. destruct (z =? 0)%Z; reflexivity. Qed.
Lemma leaf_amount nm q om force : marshal (TLeaf LAmount) force (bs nm) om q = Some (amount nm q).
Proof. destruct om; reflexivity. Qed.
Lemma leaf_date nm d om force : marshal (TLeaf LDate) force (bs nm) om d = Some (date nm d).
Proof. destruct om; reflexivity. Qed.
Lemma leaf_flag nm b force : marshal (TLeaf LBool) force (bs nm) false b = Some (flag nm b).
Proof. destruct b; reflexivity. Qed.
Lemma leaf_opt_flag nm b force : marshal (TLeaf LBool) force (bs nm) true b = Some (opt_flag nm b).
Proof. destruct b; reflexivity. Qed.

Lemma leaf_choice t nm om v force : In t all_enums ->
  marshal (TLeaf (LEnum t)) force (bs nm) om v = Some (choice nm t v).
Proof.
  intros Ht. change (marshal (TLeaf (LEnum t)) force (bs nm) om v) with
    (if om && N.eqb v 0 then Some [] else
     o <- enum_marshal t v ;; match o with None => Some [] | Some s => Some [Elem (bs nm) (text_kids s)] end).
  unfold choice. destruct (enum_marshal_spec t Ht v) as [(n & H1 & Hn & Hm & _)|(H1 & Hm & _)]; rewrite Hm; cbn [bind].
  - destruct v as [|p]; [lia|]. rewrite andb_false_r, Hn. reflexivity.
  - destruct v as [|p]; [destruct om; reflexivity|]. rewrite andb_false_r.
    assert (Hnone : nth_error (en_names t) (N.to_nat (N.pos p) - 1) = None).
    { apply nth_error_None. destruct (N.lt_ge_cases (N.of_nat (List.length (en_names t))) (N.pos p)); [lia|].
      exfalso. apply H1. lia. }
    rewrite Hnone. reflexivity.
Qed.


(** ** Pointers and slices *)

Lemma ptr_given {A} t force nm om (to : A -> interp t) f o :
  (forall x, marshal t force nm om (to x) = Some (f x)) ->
  marshal (TPtr t) force nm om (option_map to o) = Some (given f o).
Proof. intros H. destruct o; [apply H | reflexivity]. Qed.

Lemma ptr_date nm om (o : option gotime) force :
  marshal (TPtr (TLeaf LDate)) force (bs nm) om o = Some (given (date nm) o).
Proof. destruct o; [exact (leaf_date nm _ om force) | reflexivity]. Qed.
Lemma ptr_amount nm om (o : option Q) force :
  marshal (TPtr (TLeaf LAmount)) force (bs nm) om o = Some (given (amount nm) o).
Proof. destruct o; [exact (leaf_amount nm _ om force) | reflexivity]. Qed.

Lemma concat_each {A B} (g : B -> option (list node)) (to : A -> B) f l :
  (forall x, g (to x) = Some (f x)) -> concat_opt g (map to l) = Some (each f l).
Proof.
  intros H. induction l as [|x l IH]; [reflexivity|]. cbn [map concat_opt]. rewrite H. cbn [bind].
  rewrite IH. reflexivity.
Qed.

Lemma slice_each {A} t force nm om (to : A -> interp t) f l :
  (forall x, marshal t force nm om (to x) = Some (f x)) ->
  marshal (TSlice t) force nm om (map to l) = Some (each f l).
Proof.
  intros H. change (marshal (TSlice t) force nm om (map to l)) with
    (if om && null (map to l) then Some [] else concat_opt (marshal t force nm om) (map to l)).
  rewrite (concat_each _ _ _ _ H). destruct om, l; reflexivity.
Qed.

Lemma slice_texts nm (l : list str) force :
  marshal (TSlice (TLeaf LString)) force (bs nm) false l = Some (each (text nm) l).
Proof.
  rewrite <- (map_id l) at 1. apply (slice_each (TLeaf LString) force (bs nm) false (fun x => x)).
  intros x. exact (leaf_text nm x force).
Qed.

Lemma alts_each {A} a force nm om (to : A -> interp_alts a) f l :
  (forall x, marshal_alt a (to x) = Some (f x)) ->
  marshal (TAlts a) force nm om (map to l) = Some (each f l).
Proof. intros H. exact (concat_each _ _ _ _ H). Qed.

(** Every item of such a list is written as one element. *)
Lemma altlist_each {A} x a force nm (to : A -> interp_alts a) f l :
  (forall x, marshal_alt a (to x) = Some (f x)) -> (forall x, f x <> []) ->
  marshal (TAltList (bs x) a) force nm true (map to l) = Some (unless_empty x (each f l)).
Proof.
  intros H Hf. change (marshal (TAltList (bs x) a) force nm true (map to l)) with
    (if null (map to l) then Some [] else k <- concat_opt (marshal_alt a) (map to l) ;; Some [Elem (bs x) k]).
  rewrite (concat_each _ _ _ _ H). cbn [bind]. destruct l as [|y l]; [reflexivity|].
  cbn [map null each flat_map]. destruct (f y) as [|n k] eqn:E; [destruct (Hf y E) | reflexivity].
Qed.

Lemma custom_cons ps nm om t fs v vs a b : marshal t true nm false v = Some a -> custom_kids fs vs = Some b ->
  custom_kids (FCons ps nm om t fs) (v, vs) = Some (a ++ b).
Proof. intros H1 H2. cbn. rewrite H1. cbn [bind]. rewrite H2. reflexivity. Qed.

Lemma marshal_custom x fs force nm om v k k' : custom_kids fs v = Some k -> k = k' ->
  marshal (TCustom (bs x) fs) force nm om v = Some (inside x k').
Proof. intros H <-. cbn. rewrite H. reflexivity. Qed.

Create HintDb content.
#[export] Hint Resolve leaf_text leaf_opt_text leaf_uid leaf_opt_uid leaf_curr leaf_number leaf_opt_number
  leaf_amount leaf_date leaf_flag leaf_opt_flag leaf_choice ptr_date ptr_amount : content.
#[export] Hint Extern 1 (In _ all_enums) => repeat (first [left; reflexivity | right]) : content.
#[export] Hint Resolve ptr_given slice_each slice_texts alts_each altlist_each | 4 : content.

(** The paths of the fields are literals: compute how they are nested. *)
Ltac known_names :=
  repeat match goal with
  | |- context [str_eqb (bs ?a) (bs ?b)] =>
      let r := eval vm_compute in (str_eqb (bs a) (bs b)) in change (str_eqb (bs a) (bs b)) with r
  end.

Lemma if_same {A} (b : bool) (x : A) : (if b then x else x) = x.
Proof. destruct b; reflexivity. Qed.

Lemma arrange_cons ps b ns l st : arrange ((ps, b, ns) :: l) st =
  repeat SClose (List.length st - common_prefix st ps) ++
  (if b then [] else map SOpen (skipn (common_prefix st ps) ps)) ++
  SWholes ns :: arrange l (if b then firstn (common_prefix st ps) ps else ps).
Proof. reflexivity. Qed.
Lemma arrange_nil st : arrange [] st = repeat SClose (List.length st).
Proof. reflexivity. Qed.

Ltac nest_step :=
  first [rewrite arrange_cons | rewrite arrange_nil];
  cbn [common_prefix]; known_names; cbn [common_prefix]; known_names; cbn [common_prefix];
  cbn [List.length Nat.sub repeat app map skipn firstn]; rewrite ?if_same;
  repeat (match goal with
  | |- context [arrange _ (if match ?o with None => true | Some _ => false end then _ else _)] => destruct o
  | |- context [arrange _ (if match option_map _ ?o with None => true | Some _ => false end then _ else _)] => destruct o
  end; cbn [option_map given app]).

Ltac nest :=
  unfold assembled; repeat nest_step;
  cbn [assemble hd app]; unfold inside, unless_empty; cbn [app]; rewrite ?app_nil_r, <- ?app_assoc; reflexivity.

(** Nil pointers matter below a parent element. *)
Ltac nils :=
  repeat match goal with
  | |- context [is_nil ?t ?v] =>
      let t' := eval hnf in t in
      match t' with TPtr _ => fail 1 | _ => change (is_nil t v) with false end
  end;
  cbn [is_nil].

Ltac hide_nodes :=
  repeat match goal with
  | |- context [(?p, ?b, ?n) :: _] =>
      lazymatch n with given _ _ => fail | _ => first [is_var n; fail 1 | constr_eq n (@nil node); fail 1 | generalize n; intro] end
  end.

Ltac fields :=
  repeat (eapply pieces_cons; [eauto 6 with content|]); apply pieces_nil.

Ltac written_plain := eapply struct_plain; [fields | nils; hide_nodes; nest | reflexivity].
Ltac written_forced := eapply struct_forced; [fields | nils; hide_nodes; nest].
Ltac written_named := eapply struct_named; [fields | nils; hide_nodes; nest].

(** ** The structs *)

Lemma Status_written nm om r : marshal Status_ty false nm om (Status_to r) = Some (Status_element r).
Proof. unfold Status_ty, Status_to, Status_element, Status_fields. written_plain. Qed.
Lemma Status_forced om r : marshal Status_ty true (bs "STATUS") om (Status_to r) = Some (Status_element r).
Proof. unfold Status_ty, Status_to, Status_element, Status_fields. written_forced. Qed.
#[export] Hint Resolve Status_written Status_forced : content.

Lemma BankAcct_written force nm om r : marshal BankAcct_ty force (bs nm) om (BankAcct_to r) = Some (BankAcct_element nm r).
Proof. unfold BankAcct_ty, BankAcct_to, BankAcct_element, BankAcct_fields. written_named. Qed.
#[export] Hint Resolve BankAcct_written : content.

Lemma CCAcct_written force nm om r : marshal CCAcct_ty force (bs nm) om (CCAcct_to r) = Some (CCAcct_element nm r).
Proof. unfold CCAcct_ty, CCAcct_to, CCAcct_element, CCAcct_fields. written_named. Qed.
#[export] Hint Resolve CCAcct_written : content.

Lemma InvAcct_written force nm om r : marshal InvAcct_ty force (bs nm) om (InvAcct_to r) = Some (InvAcct_element nm r).
Proof. unfold InvAcct_ty, InvAcct_to, InvAcct_element, InvAcct_fields. written_named. Qed.
#[export] Hint Resolve InvAcct_written : content.

Lemma Currency_written force nm om r : marshal Currency_ty force (bs nm) om (Currency_to r) = Some (Currency_element nm r).
Proof. unfold Currency_ty, Currency_to, Currency_element, Currency_fields. written_named. Qed.
#[export] Hint Resolve Currency_written : content.

Lemma SecurityID_written nm om r : marshal SecurityID_ty false nm om (SecurityID_to r) = Some (SecurityID_element r).
Proof. unfold SecurityID_ty, SecurityID_to, SecurityID_element, SecurityID_fields. written_plain. Qed.
Lemma SecurityID_forced om r : marshal SecurityID_ty true (bs "SECID") om (SecurityID_to r) = Some (SecurityID_element r).
Proof. unfold SecurityID_ty, SecurityID_to, SecurityID_element, SecurityID_fields. written_forced. Qed.
#[export] Hint Resolve SecurityID_written SecurityID_forced : content.

Lemma SecurityRequest_written nm om r : marshal SecurityRequest_ty false nm om (SecurityRequest_to r) = Some (SecurityRequest_element r).
Proof. unfold SecurityRequest_ty, SecurityRequest_to, SecurityRequest_element, SecurityRequest_fields. written_plain. Qed.
Lemma SecurityRequest_forced om r : marshal SecurityRequest_ty true (bs "SECRQ") om (SecurityRequest_to r) = Some (SecurityRequest_element r).
Proof. unfold SecurityRequest_ty, SecurityRequest_to, SecurityRequest_element, SecurityRequest_fields. written_forced. Qed.
#[export] Hint Resolve SecurityRequest_written SecurityRequest_forced : content.

Lemma SecListRequest_written nm om r : marshal SecListRequest_ty false nm om (SecListRequest_to r) = Some (SecListRequest_element r).
Proof. unfold SecListRequest_ty, SecListRequest_to, SecListRequest_element, SecListRequest_fields. written_plain. Qed.
Lemma SecListRequest_forced om r : marshal SecListRequest_ty true (bs "SECLISTTRNRQ") om (SecListRequest_to r) = Some (SecListRequest_element r).
Proof. unfold SecListRequest_ty, SecListRequest_to, SecListRequest_element, SecListRequest_fields. written_forced. Qed.
#[export] Hint Resolve SecListRequest_written SecListRequest_forced : content.

Lemma SecListResponse_written nm om r : marshal SecListResponse_ty false nm om (SecListResponse_to r) = Some (SecListResponse_element r).
Proof. unfold SecListResponse_ty, SecListResponse_to, SecListResponse_element, SecListResponse_fields. written_plain. Qed.
Lemma SecListResponse_forced om r : marshal SecListResponse_ty true (bs "SECLISTTRNRS") om (SecListResponse_to r) = Some (SecListResponse_element r).
Proof. unfold SecListResponse_ty, SecListResponse_to, SecListResponse_element, SecListResponse_fields. written_forced. Qed.
#[export] Hint Resolve SecListResponse_written SecListResponse_forced : content.

Lemma SecInfo_written nm om r : marshal SecInfo_ty false nm om (SecInfo_to r) = Some (SecInfo_element r).
Proof. unfold SecInfo_ty, SecInfo_to, SecInfo_element, SecInfo_fields. written_plain. Qed.
Lemma SecInfo_forced om r : marshal SecInfo_ty true (bs "SECINFO") om (SecInfo_to r) = Some (SecInfo_element r).
Proof. unfold SecInfo_ty, SecInfo_to, SecInfo_element, SecInfo_fields. written_forced. Qed.
#[export] Hint Resolve SecInfo_written SecInfo_forced : content.

Lemma DebtInfo_written nm om r : marshal DebtInfo_ty false nm om (DebtInfo_to r) = Some (DebtInfo_element r).
Proof. unfold DebtInfo_ty, DebtInfo_to, DebtInfo_element, DebtInfo_fields. written_plain. Qed.
Lemma DebtInfo_forced om r : marshal DebtInfo_ty true (bs "DEBTINFO") om (DebtInfo_to r) = Some (DebtInfo_element r).
Proof. unfold DebtInfo_ty, DebtInfo_to, DebtInfo_element, DebtInfo_fields. written_forced. Qed.
#[export] Hint Resolve DebtInfo_written DebtInfo_forced : content.

Lemma AssetPortion_written nm om r : marshal AssetPortion_ty false nm om (AssetPortion_to r) = Some (AssetPortion_element r).
Proof. unfold AssetPortion_ty, AssetPortion_to, AssetPortion_element, AssetPortion_fields. written_plain. Qed.
Lemma AssetPortion_forced om r : marshal AssetPortion_ty true (bs "PORTION") om (AssetPortion_to r) = Some (AssetPortion_element r).
Proof. unfold AssetPortion_ty, AssetPortion_to, AssetPortion_element, AssetPortion_fields. written_forced. Qed.
#[export] Hint Resolve AssetPortion_written AssetPortion_forced : content.

Lemma FiAssetPortion_written nm om r : marshal FiAssetPortion_ty false nm om (FiAssetPortion_to r) = Some (FiAssetPortion_element r).
Proof. unfold FiAssetPortion_ty, FiAssetPortion_to, FiAssetPortion_element, FiAssetPortion_fields. written_plain. Qed.
Lemma FiAssetPortion_forced om r : marshal FiAssetPortion_ty true (bs "FIPORTION") om (FiAssetPortion_to r) = Some (FiAssetPortion_element r).
Proof. unfold FiAssetPortion_ty, FiAssetPortion_to, FiAssetPortion_element, FiAssetPortion_fields. written_forced. Qed.
#[export] Hint Resolve FiAssetPortion_written FiAssetPortion_forced : content.

Lemma MFInfo_written nm om r : marshal MFInfo_ty false nm om (MFInfo_to r) = Some (MFInfo_element r).
Proof. unfold MFInfo_ty, MFInfo_to, MFInfo_element, MFInfo_fields. written_plain. Qed.
Lemma MFInfo_forced om r : marshal MFInfo_ty true (bs "MFINFO") om (MFInfo_to r) = Some (MFInfo_element r).
Proof. unfold MFInfo_ty, MFInfo_to, MFInfo_element, MFInfo_fields. written_forced. Qed.
#[export] Hint Resolve MFInfo_written MFInfo_forced : content.

Lemma OptInfo_written nm om r : marshal OptInfo_ty false nm om (OptInfo_to r) = Some (OptInfo_element r).
Proof. unfold OptInfo_ty, OptInfo_to, OptInfo_element, OptInfo_fields. written_plain. Qed.
Lemma OptInfo_forced om r : marshal OptInfo_ty true (bs "OPTINFO") om (OptInfo_to r) = Some (OptInfo_element r).
Proof. unfold OptInfo_ty, OptInfo_to, OptInfo_element, OptInfo_fields. written_forced. Qed.
#[export] Hint Resolve OptInfo_written OptInfo_forced : content.

Lemma OtherInfo_written nm om r : marshal OtherInfo_ty false nm om (OtherInfo_to r) = Some (OtherInfo_element r).
Proof. unfold OtherInfo_ty, OtherInfo_to, OtherInfo_element, OtherInfo_fields. written_plain. Qed.
Lemma OtherInfo_forced om r : marshal OtherInfo_ty true (bs "OTHERINFO") om (OtherInfo_to r) = Some (OtherInfo_element r).
Proof. unfold OtherInfo_ty, OtherInfo_to, OtherInfo_element, OtherInfo_fields. written_forced. Qed.
#[export] Hint Resolve OtherInfo_written OtherInfo_forced : content.

Lemma StockInfo_written nm om r : marshal StockInfo_ty false nm om (StockInfo_to r) = Some (StockInfo_element r).
Proof. unfold StockInfo_ty, StockInfo_to, StockInfo_element, StockInfo_fields. written_plain. Qed.
Lemma StockInfo_forced om r : marshal StockInfo_ty true (bs "STOCKINFO") om (StockInfo_to r) = Some (StockInfo_element r).
Proof. unfold StockInfo_ty, StockInfo_to, StockInfo_element, StockInfo_fields. written_forced. Qed.
#[export] Hint Resolve StockInfo_written StockInfo_forced : content.

Lemma Security_written r : marshal_alt Security_alts (Security_to r) = Some (Security_element r).
Proof.
  destruct r; [exact (DebtInfo_forced false _) | exact (MFInfo_forced false _) | exact (OptInfo_forced false _) | exact (OtherInfo_forced false _) | exact (StockInfo_forced false _)].
Qed.
Lemma Security_some r : Security_element r <> [].
Proof. destruct r; discriminate. Qed.
#[export] Hint Resolve Security_written Security_some : content.

Lemma SecurityList_written force nm om r : marshal SecurityList_ty force nm om (SecurityList_to r) = Some (SecurityList_element r).
Proof.
  unfold SecurityList_ty, SecurityList_to, SecurityList_element, SecurityList_fields. eapply marshal_custom.
  - repeat (eapply custom_cons; [eauto 6 with content|]). reflexivity.
  - rewrite ?app_nil_r. reflexivity.
Qed.
#[export] Hint Resolve SecurityList_written : content.

Lemma SignonRequest_written nm om r : marshal SignonRequest_ty false nm om (SignonRequest_to r) = Some (SignonRequest_element r).
Proof. unfold SignonRequest_ty, SignonRequest_to, SignonRequest_element, SignonRequest_fields. written_plain. Qed.
Lemma SignonRequest_forced om r : marshal SignonRequest_ty true (bs "SONRQ") om (SignonRequest_to r) = Some (SignonRequest_element r).
Proof. unfold SignonRequest_ty, SignonRequest_to, SignonRequest_element, SignonRequest_fields. written_forced. Qed.
#[export] Hint Resolve SignonRequest_written SignonRequest_forced : content.

Lemma SignonResponse_written nm om r : marshal SignonResponse_ty false nm om (SignonResponse_to r) = Some (SignonResponse_element r).
Proof. unfold SignonResponse_ty, SignonResponse_to, SignonResponse_element, SignonResponse_fields. written_plain. Qed.
Lemma SignonResponse_forced om r : marshal SignonResponse_ty true (bs "SONRS") om (SignonResponse_to r) = Some (SignonResponse_element r).
Proof. unfold SignonResponse_ty, SignonResponse_to, SignonResponse_element, SignonResponse_fields. written_forced. Qed.
#[export] Hint Resolve SignonResponse_written SignonResponse_forced : content.

Lemma AcctInfoRequest_written nm om r : marshal AcctInfoRequest_ty false nm om (AcctInfoRequest_to r) = Some (AcctInfoRequest_element r).
Proof. unfold AcctInfoRequest_ty, AcctInfoRequest_to, AcctInfoRequest_element, AcctInfoRequest_fields. written_plain. Qed.
Lemma AcctInfoRequest_forced om r : marshal AcctInfoRequest_ty true (bs "ACCTINFOTRNRQ") om (AcctInfoRequest_to r) = Some (AcctInfoRequest_element r).
Proof. unfold AcctInfoRequest_ty, AcctInfoRequest_to, AcctInfoRequest_element, AcctInfoRequest_fields. written_forced. Qed.
#[export] Hint Resolve AcctInfoRequest_written AcctInfoRequest_forced : content.

Lemma HolderInfo_written force nm om r : marshal HolderInfo_ty force (bs nm) om (HolderInfo_to r) = Some (HolderInfo_element nm r).
Proof. unfold HolderInfo_ty, HolderInfo_to, HolderInfo_element, HolderInfo_fields. written_named. Qed.
#[export] Hint Resolve HolderInfo_written : content.

Lemma BankAcctInfo_written nm om r : marshal BankAcctInfo_ty false nm om (BankAcctInfo_to r) = Some (BankAcctInfo_element r).
Proof. unfold BankAcctInfo_ty, BankAcctInfo_to, BankAcctInfo_element, BankAcctInfo_fields. written_plain. Qed.
Lemma BankAcctInfo_forced om r : marshal BankAcctInfo_ty true (bs "BANKACCTINFO") om (BankAcctInfo_to r) = Some (BankAcctInfo_element r).
Proof. unfold BankAcctInfo_ty, BankAcctInfo_to, BankAcctInfo_element, BankAcctInfo_fields. written_forced. Qed.
#[export] Hint Resolve BankAcctInfo_written BankAcctInfo_forced : content.

Lemma CCAcctInfo_written nm om r : marshal CCAcctInfo_ty false nm om (CCAcctInfo_to r) = Some (CCAcctInfo_element r).
Proof. unfold CCAcctInfo_ty, CCAcctInfo_to, CCAcctInfo_element, CCAcctInfo_fields. written_plain. Qed.
Lemma CCAcctInfo_forced om r : marshal CCAcctInfo_ty true (bs "CCACCTINFO") om (CCAcctInfo_to r) = Some (CCAcctInfo_element r).
Proof. unfold CCAcctInfo_ty, CCAcctInfo_to, CCAcctInfo_element, CCAcctInfo_fields. written_forced. Qed.
#[export] Hint Resolve CCAcctInfo_written CCAcctInfo_forced : content.

Lemma InvAcctInfo_written nm om r : marshal InvAcctInfo_ty false nm om (InvAcctInfo_to r) = Some (InvAcctInfo_element r).
Proof. unfold InvAcctInfo_ty, InvAcctInfo_to, InvAcctInfo_element, InvAcctInfo_fields. written_plain. Qed.
Lemma InvAcctInfo_forced om r : marshal InvAcctInfo_ty true (bs "INVACCTINFO") om (InvAcctInfo_to r) = Some (InvAcctInfo_element r).
Proof. unfold InvAcctInfo_ty, InvAcctInfo_to, InvAcctInfo_element, InvAcctInfo_fields. written_forced. Qed.
#[export] Hint Resolve InvAcctInfo_written InvAcctInfo_forced : content.

Lemma AcctInfo_written nm om r : marshal AcctInfo_ty false nm om (AcctInfo_to r) = Some (AcctInfo_element r).
Proof. unfold AcctInfo_ty, AcctInfo_to, AcctInfo_element, AcctInfo_fields. written_plain. Qed.
Lemma AcctInfo_forced om r : marshal AcctInfo_ty true (bs "ACCTINFO") om (AcctInfo_to r) = Some (AcctInfo_element r).
Proof. unfold AcctInfo_ty, AcctInfo_to, AcctInfo_element, AcctInfo_fields. written_forced. Qed.
#[export] Hint Resolve AcctInfo_written AcctInfo_forced : content.

Lemma AcctInfoResponse_written nm om r : marshal AcctInfoResponse_ty false nm om (AcctInfoResponse_to r) = Some (AcctInfoResponse_element r).
Proof. unfold AcctInfoResponse_ty, AcctInfoResponse_to, AcctInfoResponse_element, AcctInfoResponse_fields. written_plain. Qed.
Lemma AcctInfoResponse_forced om r : marshal AcctInfoResponse_ty true (bs "ACCTINFOTRNRS") om (AcctInfoResponse_to r) = Some (AcctInfoResponse_element r).
Proof. unfold AcctInfoResponse_ty, AcctInfoResponse_to, AcctInfoResponse_element, AcctInfoResponse_fields. written_forced. Qed.
#[export] Hint Resolve AcctInfoResponse_written AcctInfoResponse_forced : content.

Lemma StatementRequest_written nm om r : marshal StatementRequest_ty false nm om (StatementRequest_to r) = Some (StatementRequest_element r).
Proof. unfold StatementRequest_ty, StatementRequest_to, StatementRequest_element, StatementRequest_fields. written_plain. Qed.
Lemma StatementRequest_forced om r : marshal StatementRequest_ty true (bs "STMTTRNRQ") om (StatementRequest_to r) = Some (StatementRequest_element r).
Proof. unfold StatementRequest_ty, StatementRequest_to, StatementRequest_element, StatementRequest_fields. written_forced. Qed.
#[export] Hint Resolve StatementRequest_written StatementRequest_forced : content.

Lemma Payee_written nm om r : marshal Payee_ty false nm om (Payee_to r) = Some (Payee_element r).
Proof. unfold Payee_ty, Payee_to, Payee_element, Payee_fields. written_plain. Qed.
Lemma Payee_forced om r : marshal Payee_ty true (bs "PAYEE") om (Payee_to r) = Some (Payee_element r).
Proof. unfold Payee_ty, Payee_to, Payee_element, Payee_fields. written_forced. Qed.
#[export] Hint Resolve Payee_written Payee_forced : content.

Lemma ImageData_written nm om r : marshal ImageData_ty false nm om (ImageData_to r) = Some (ImageData_element r).
Proof. unfold ImageData_ty, ImageData_to, ImageData_element, ImageData_fields. written_plain. Qed.
Lemma ImageData_forced om r : marshal ImageData_ty true (bs "IMAGEDATA") om (ImageData_to r) = Some (ImageData_element r).
Proof. unfold ImageData_ty, ImageData_to, ImageData_element, ImageData_fields. written_forced. Qed.
#[export] Hint Resolve ImageData_written ImageData_forced : content.

Lemma Transaction_written nm om r : marshal Transaction_ty false nm om (Transaction_to r) = Some (Transaction_element r).
Proof. unfold Transaction_ty, Transaction_to, Transaction_element, Transaction_fields. written_plain. Qed.
Lemma Transaction_forced om r : marshal Transaction_ty true (bs "STMTTRN") om (Transaction_to r) = Some (Transaction_element r).
Proof. unfold Transaction_ty, Transaction_to, Transaction_element, Transaction_fields. written_forced. Qed.
#[export] Hint Resolve Transaction_written Transaction_forced : content.

Lemma TransactionList_written nm om r : marshal TransactionList_ty false nm om (TransactionList_to r) = Some (TransactionList_element r).
Proof. unfold TransactionList_ty, TransactionList_to, TransactionList_element, TransactionList_fields. written_plain. Qed.
Lemma TransactionList_forced om r : marshal TransactionList_ty true (bs "BANKTRANLIST") om (TransactionList_to r) = Some (TransactionList_element r).
Proof. unfold TransactionList_ty, TransactionList_to, TransactionList_element, TransactionList_fields. written_forced. Qed.
#[export] Hint Resolve TransactionList_written TransactionList_forced : content.

Lemma PendingTransaction_written nm om r : marshal PendingTransaction_ty false nm om (PendingTransaction_to r) = Some (PendingTransaction_element r).
Proof. unfold PendingTransaction_ty, PendingTransaction_to, PendingTransaction_element, PendingTransaction_fields. written_plain. Qed.
Lemma PendingTransaction_forced om r : marshal PendingTransaction_ty true (bs "STMTTRNP") om (PendingTransaction_to r) = Some (PendingTransaction_element r).
Proof. unfold PendingTransaction_ty, PendingTransaction_to, PendingTransaction_element, PendingTransaction_fields. written_forced. Qed.
#[export] Hint Resolve PendingTransaction_written PendingTransaction_forced : content.

Lemma PendingTransactionList_written nm om r : marshal PendingTransactionList_ty false nm om (PendingTransactionList_to r) = Some (PendingTransactionList_element r).
Proof. unfold PendingTransactionList_ty, PendingTransactionList_to, PendingTransactionList_element, PendingTransactionList_fields. written_plain. Qed.
Lemma PendingTransactionList_forced om r : marshal PendingTransactionList_ty true (bs "BANKTRANLISTP") om (PendingTransactionList_to r) = Some (PendingTransactionList_element r).
Proof. unfold PendingTransactionList_ty, PendingTransactionList_to, PendingTransactionList_element, PendingTransactionList_fields. written_forced. Qed.
#[export] Hint Resolve PendingTransactionList_written PendingTransactionList_forced : content.

Lemma Balance_written nm om r : marshal Balance_ty false nm om (Balance_to r) = Some (Balance_element r).
Proof. unfold Balance_ty, Balance_to, Balance_element, Balance_fields. written_plain. Qed.
Lemma Balance_forced om r : marshal Balance_ty true (bs "BAL") om (Balance_to r) = Some (Balance_element r).
Proof. unfold Balance_ty, Balance_to, Balance_element, Balance_fields. written_forced. Qed.
#[export] Hint Resolve Balance_written Balance_forced : content.

Lemma StatementResponse_written nm om r : marshal StatementResponse_ty false nm om (StatementResponse_to r) = Some (StatementResponse_element r).
Proof. unfold StatementResponse_ty, StatementResponse_to, StatementResponse_element, StatementResponse_fields. written_plain. Qed.
Lemma StatementResponse_forced om r : marshal StatementResponse_ty true (bs "STMTTRNRS") om (StatementResponse_to r) = Some (StatementResponse_element r).
Proof. unfold StatementResponse_ty, StatementResponse_to, StatementResponse_element, StatementResponse_fields. written_forced. Qed.
#[export] Hint Resolve StatementResponse_written StatementResponse_forced : content.

Lemma CCStatementRequest_written nm om r : marshal CCStatementRequest_ty false nm om (CCStatementRequest_to r) = Some (CCStatementRequest_element r).
Proof. unfold CCStatementRequest_ty, CCStatementRequest_to, CCStatementRequest_element, CCStatementRequest_fields. written_plain. Qed.
Lemma CCStatementRequest_forced om r : marshal CCStatementRequest_ty true (bs "CCSTMTTRNRQ") om (CCStatementRequest_to r) = Some (CCStatementRequest_element r).
Proof. unfold CCStatementRequest_ty, CCStatementRequest_to, CCStatementRequest_element, CCStatementRequest_fields. written_forced. Qed.
#[export] Hint Resolve CCStatementRequest_written CCStatementRequest_forced : content.

Lemma CCStatementResponse_written nm om r : marshal CCStatementResponse_ty false nm om (CCStatementResponse_to r) = Some (CCStatementResponse_element r).
Proof. unfold CCStatementResponse_ty, CCStatementResponse_to, CCStatementResponse_element, CCStatementResponse_fields. written_plain. Qed.
Lemma CCStatementResponse_forced om r : marshal CCStatementResponse_ty true (bs "CCSTMTTRNRS") om (CCStatementResponse_to r) = Some (CCStatementResponse_element r).
Proof. unfold CCStatementResponse_ty, CCStatementResponse_to, CCStatementResponse_element, CCStatementResponse_fields. written_forced. Qed.
#[export] Hint Resolve CCStatementResponse_written CCStatementResponse_forced : content.

Lemma InvStatementRequest_written nm om r : marshal InvStatementRequest_ty false nm om (InvStatementRequest_to r) = Some (InvStatementRequest_element r).
Proof. unfold InvStatementRequest_ty, InvStatementRequest_to, InvStatementRequest_element, InvStatementRequest_fields. written_plain. Qed.
Lemma InvStatementRequest_forced om r : marshal InvStatementRequest_ty true (bs "INVSTMTTRNRQ") om (InvStatementRequest_to r) = Some (InvStatementRequest_element r).
Proof. unfold InvStatementRequest_ty, InvStatementRequest_to, InvStatementRequest_element, InvStatementRequest_fields. written_forced. Qed.
#[export] Hint Resolve InvStatementRequest_written InvStatementRequest_forced : content.

Lemma InvTran_written nm om r : marshal InvTran_ty false nm om (InvTran_to r) = Some (InvTran_element r).
Proof. unfold InvTran_ty, InvTran_to, InvTran_element, InvTran_fields. written_plain. Qed.
Lemma InvTran_forced om r : marshal InvTran_ty true (bs "INVTRAN") om (InvTran_to r) = Some (InvTran_element r).
Proof. unfold InvTran_ty, InvTran_to, InvTran_element, InvTran_fields. written_forced. Qed.
#[export] Hint Resolve InvTran_written InvTran_forced : content.

Lemma InvBuy_written nm om r : marshal InvBuy_ty false nm om (InvBuy_to r) = Some (InvBuy_element r).
Proof. unfold InvBuy_ty, InvBuy_to, InvBuy_element, InvBuy_fields. written_plain. Qed.
Lemma InvBuy_forced om r : marshal InvBuy_ty true (bs "INVBUY") om (InvBuy_to r) = Some (InvBuy_element r).
Proof. unfold InvBuy_ty, InvBuy_to, InvBuy_element, InvBuy_fields. written_forced. Qed.
#[export] Hint Resolve InvBuy_written InvBuy_forced : content.

Lemma InvSell_written nm om r : marshal InvSell_ty false nm om (InvSell_to r) = Some (InvSell_element r).
Proof. unfold InvSell_ty, InvSell_to, InvSell_element, InvSell_fields. written_plain. Qed.
Lemma InvSell_forced om r : marshal InvSell_ty true (bs "INVSELL") om (InvSell_to r) = Some (InvSell_element r).
Proof. unfold InvSell_ty, InvSell_to, InvSell_element, InvSell_fields. written_forced. Qed.
#[export] Hint Resolve InvSell_written InvSell_forced : content.

Lemma BuyDebt_written nm om r : marshal BuyDebt_ty false nm om (BuyDebt_to r) = Some (BuyDebt_element r).
Proof. unfold BuyDebt_ty, BuyDebt_to, BuyDebt_element, BuyDebt_fields. written_plain. Qed.
Lemma BuyDebt_forced om r : marshal BuyDebt_ty true (bs "BUYDEBT") om (BuyDebt_to r) = Some (BuyDebt_element r).
Proof. unfold BuyDebt_ty, BuyDebt_to, BuyDebt_element, BuyDebt_fields. written_forced. Qed.
#[export] Hint Resolve BuyDebt_written BuyDebt_forced : content.

Lemma BuyMF_written nm om r : marshal BuyMF_ty false nm om (BuyMF_to r) = Some (BuyMF_element r).
Proof. unfold BuyMF_ty, BuyMF_to, BuyMF_element, BuyMF_fields. written_plain. Qed.
Lemma BuyMF_forced om r : marshal BuyMF_ty true (bs "BUYMF") om (BuyMF_to r) = Some (BuyMF_element r).
Proof. unfold BuyMF_ty, BuyMF_to, BuyMF_element, BuyMF_fields. written_forced. Qed.
#[export] Hint Resolve BuyMF_written BuyMF_forced : content.

Lemma BuyOpt_written nm om r : marshal BuyOpt_ty false nm om (BuyOpt_to r) = Some (BuyOpt_element r).
Proof. unfold BuyOpt_ty, BuyOpt_to, BuyOpt_element, BuyOpt_fields. written_plain. Qed.
Lemma BuyOpt_forced om r : marshal BuyOpt_ty true (bs "BUYOPT") om (BuyOpt_to r) = Some (BuyOpt_element r).
Proof. unfold BuyOpt_ty, BuyOpt_to, BuyOpt_element, BuyOpt_fields. written_forced. Qed.
#[export] Hint Resolve BuyOpt_written BuyOpt_forced : content.

Lemma BuyOther_written nm om r : marshal BuyOther_ty false nm om (BuyOther_to r) = Some (BuyOther_element r).
Proof. unfold BuyOther_ty, BuyOther_to, BuyOther_element, BuyOther_fields. written_plain. Qed.
Lemma BuyOther_forced om r : marshal BuyOther_ty true (bs "BUYOTHER") om (BuyOther_to r) = Some (BuyOther_element r).
Proof. unfold BuyOther_ty, BuyOther_to, BuyOther_element, BuyOther_fields. written_forced. Qed.
#[export] Hint Resolve BuyOther_written BuyOther_forced : content.

Lemma BuyStock_written nm om r : marshal BuyStock_ty false nm om (BuyStock_to r) = Some (BuyStock_element r).
Proof. unfold BuyStock_ty, BuyStock_to, BuyStock_element, BuyStock_fields. written_plain. Qed.
Lemma BuyStock_forced om r : marshal BuyStock_ty true (bs "BUYSTOCK") om (BuyStock_to r) = Some (BuyStock_element r).
Proof. unfold BuyStock_ty, BuyStock_to, BuyStock_element, BuyStock_fields. written_forced. Qed.
#[export] Hint Resolve BuyStock_written BuyStock_forced : content.

Lemma ClosureOpt_written nm om r : marshal ClosureOpt_ty false nm om (ClosureOpt_to r) = Some (ClosureOpt_element r).
Proof. unfold ClosureOpt_ty, ClosureOpt_to, ClosureOpt_element, ClosureOpt_fields. written_plain. Qed.
Lemma ClosureOpt_forced om r : marshal ClosureOpt_ty true (bs "CLOSUREOPT") om (ClosureOpt_to r) = Some (ClosureOpt_element r).
Proof. unfold ClosureOpt_ty, ClosureOpt_to, ClosureOpt_element, ClosureOpt_fields. written_forced. Qed.
#[export] Hint Resolve ClosureOpt_written ClosureOpt_forced : content.

Lemma Income_written nm om r : marshal Income_ty false nm om (Income_to r) = Some (Income_element r).
Proof. unfold Income_ty, Income_to, Income_element, Income_fields. written_plain. Qed.
Lemma Income_forced om r : marshal Income_ty true (bs "INCOME") om (Income_to r) = Some (Income_element r).
Proof. unfold Income_ty, Income_to, Income_element, Income_fields. written_forced. Qed.
#[export] Hint Resolve Income_written Income_forced : content.

Lemma InvExpense_written nm om r : marshal InvExpense_ty false nm om (InvExpense_to r) = Some (InvExpense_element r).
Proof. unfold InvExpense_ty, InvExpense_to, InvExpense_element, InvExpense_fields. written_plain. Qed.
Lemma InvExpense_forced om r : marshal InvExpense_ty true (bs "INVEXPENSE") om (InvExpense_to r) = Some (InvExpense_element r).
Proof. unfold InvExpense_ty, InvExpense_to, InvExpense_element, InvExpense_fields. written_forced. Qed.
#[export] Hint Resolve InvExpense_written InvExpense_forced : content.

Lemma JrnlFund_written nm om r : marshal JrnlFund_ty false nm om (JrnlFund_to r) = Some (JrnlFund_element r).
Proof. unfold JrnlFund_ty, JrnlFund_to, JrnlFund_element, JrnlFund_fields. written_plain. Qed.
Lemma JrnlFund_forced om r : marshal JrnlFund_ty true (bs "JRNLFUND") om (JrnlFund_to r) = Some (JrnlFund_element r).
Proof. unfold JrnlFund_ty, JrnlFund_to, JrnlFund_element, JrnlFund_fields. written_forced. Qed.
#[export] Hint Resolve JrnlFund_written JrnlFund_forced : content.

Lemma JrnlSec_written nm om r : marshal JrnlSec_ty false nm om (JrnlSec_to r) = Some (JrnlSec_element r).
Proof. unfold JrnlSec_ty, JrnlSec_to, JrnlSec_element, JrnlSec_fields. written_plain. Qed.
Lemma JrnlSec_forced om r : marshal JrnlSec_ty true (bs "JRNLSEC") om (JrnlSec_to r) = Some (JrnlSec_element r).
Proof. unfold JrnlSec_ty, JrnlSec_to, JrnlSec_element, JrnlSec_fields. written_forced. Qed.
#[export] Hint Resolve JrnlSec_written JrnlSec_forced : content.

Lemma MarginInterest_written nm om r : marshal MarginInterest_ty false nm om (MarginInterest_to r) = Some (MarginInterest_element r).
Proof. unfold MarginInterest_ty, MarginInterest_to, MarginInterest_element, MarginInterest_fields. written_plain. Qed.
Lemma MarginInterest_forced om r : marshal MarginInterest_ty true (bs "MARGININTEREST") om (MarginInterest_to r) = Some (MarginInterest_element r).
Proof. unfold MarginInterest_ty, MarginInterest_to, MarginInterest_element, MarginInterest_fields. written_forced. Qed.
#[export] Hint Resolve MarginInterest_written MarginInterest_forced : content.

Lemma Reinvest_written nm om r : marshal Reinvest_ty false nm om (Reinvest_to r) = Some (Reinvest_element r).
Proof. unfold Reinvest_ty, Reinvest_to, Reinvest_element, Reinvest_fields. written_plain. Qed.
Lemma Reinvest_forced om r : marshal Reinvest_ty true (bs "REINVEST") om (Reinvest_to r) = Some (Reinvest_element r).
Proof. unfold Reinvest_ty, Reinvest_to, Reinvest_element, Reinvest_fields. written_forced. Qed.
#[export] Hint Resolve Reinvest_written Reinvest_forced : content.

Lemma RetOfCap_written nm om r : marshal RetOfCap_ty false nm om (RetOfCap_to r) = Some (RetOfCap_element r).
Proof. unfold RetOfCap_ty, RetOfCap_to, RetOfCap_element, RetOfCap_fields. written_plain. Qed.
Lemma RetOfCap_forced om r : marshal RetOfCap_ty true (bs "RETOFCAP") om (RetOfCap_to r) = Some (RetOfCap_element r).
Proof. unfold RetOfCap_ty, RetOfCap_to, RetOfCap_element, RetOfCap_fields. written_forced. Qed.
#[export] Hint Resolve RetOfCap_written RetOfCap_forced : content.

Lemma SellDebt_written nm om r : marshal SellDebt_ty false nm om (SellDebt_to r) = Some (SellDebt_element r).
Proof. unfold SellDebt_ty, SellDebt_to, SellDebt_element, SellDebt_fields. written_plain. Qed.
Lemma SellDebt_forced om r : marshal SellDebt_ty true (bs "SELLDEBT") om (SellDebt_to r) = Some (SellDebt_element r).
Proof. unfold SellDebt_ty, SellDebt_to, SellDebt_element, SellDebt_fields. written_forced. Qed.
#[export] Hint Resolve SellDebt_written SellDebt_forced : content.

Lemma SellMF_written nm om r : marshal SellMF_ty false nm om (SellMF_to r) = Some (SellMF_element r).
Proof. unfold SellMF_ty, SellMF_to, SellMF_element, SellMF_fields. written_plain. Qed.
Lemma SellMF_forced om r : marshal SellMF_ty true (bs "SELLMF") om (SellMF_to r) = Some (SellMF_element r).
Proof. unfold SellMF_ty, SellMF_to, SellMF_element, SellMF_fields. written_forced. Qed.
#[export] Hint Resolve SellMF_written SellMF_forced : content.

Lemma SellOpt_written nm om r : marshal SellOpt_ty false nm om (SellOpt_to r) = Some (SellOpt_element r).
Proof. unfold SellOpt_ty, SellOpt_to, SellOpt_element, SellOpt_fields. written_plain. Qed.
Lemma SellOpt_forced om r : marshal SellOpt_ty true (bs "SELLOPT") om (SellOpt_to r) = Some (SellOpt_element r).
Proof. unfold SellOpt_ty, SellOpt_to, SellOpt_element, SellOpt_fields. written_forced. Qed.
#[export] Hint Resolve SellOpt_written SellOpt_forced : content.

Lemma SellOther_written nm om r : marshal SellOther_ty false nm om (SellOther_to r) = Some (SellOther_element r).
Proof. unfold SellOther_ty, SellOther_to, SellOther_element, SellOther_fields. written_plain. Qed.
Lemma SellOther_forced om r : marshal SellOther_ty true (bs "SELLOTHER") om (SellOther_to r) = Some (SellOther_element r).
Proof. unfold SellOther_ty, SellOther_to, SellOther_element, SellOther_fields. written_forced. Qed.
#[export] Hint Resolve SellOther_written SellOther_forced : content.

Lemma SellStock_written nm om r : marshal SellStock_ty false nm om (SellStock_to r) = Some (SellStock_element r).
Proof. unfold SellStock_ty, SellStock_to, SellStock_element, SellStock_fields. written_plain. Qed.
Lemma SellStock_forced om r : marshal SellStock_ty true (bs "SELLSTOCK") om (SellStock_to r) = Some (SellStock_element r).
Proof. unfold SellStock_ty, SellStock_to, SellStock_element, SellStock_fields. written_forced. Qed.
#[export] Hint Resolve SellStock_written SellStock_forced : content.

Lemma Split_written nm om r : marshal Split_ty false nm om (Split_to r) = Some (Split_element r).
Proof. unfold Split_ty, Split_to, Split_element, Split_fields. written_plain. Qed.
Lemma Split_forced om r : marshal Split_ty true (bs "SPLIT") om (Split_to r) = Some (Split_element r).
Proof. unfold Split_ty, Split_to, Split_element, Split_fields. written_forced. Qed.
#[export] Hint Resolve Split_written Split_forced : content.

Lemma Transfer_written nm om r : marshal Transfer_ty false nm om (Transfer_to r) = Some (Transfer_element r).
Proof. unfold Transfer_ty, Transfer_to, Transfer_element, Transfer_fields. written_plain. Qed.
Lemma Transfer_forced om r : marshal Transfer_ty true (bs "TRANSFER") om (Transfer_to r) = Some (Transfer_element r).
Proof. unfold Transfer_ty, Transfer_to, Transfer_element, Transfer_fields. written_forced. Qed.
#[export] Hint Resolve Transfer_written Transfer_forced : content.

Lemma InvBankTransaction_written nm om r : marshal InvBankTransaction_ty false nm om (InvBankTransaction_to r) = Some (InvBankTransaction_element r).
Proof. unfold InvBankTransaction_ty, InvBankTransaction_to, InvBankTransaction_element, InvBankTransaction_fields. written_plain. Qed.
Lemma InvBankTransaction_forced om r : marshal InvBankTransaction_ty true (bs "INVBANKTRAN") om (InvBankTransaction_to r) = Some (InvBankTransaction_element r).
Proof. unfold InvBankTransaction_ty, InvBankTransaction_to, InvBankTransaction_element, InvBankTransaction_fields. written_forced. Qed.
#[export] Hint Resolve InvBankTransaction_written InvBankTransaction_forced : content.

Lemma InvTransaction_written r : marshal_alt InvTransaction_alts (InvTransaction_to r) = Some (InvTransaction_element r).
Proof.
  destruct r; [exact (BuyDebt_forced false _) | exact (BuyMF_forced false _) | exact (BuyOpt_forced false _) | exact (BuyOther_forced false _) | exact (BuyStock_forced false _) | exact (ClosureOpt_forced false _) | exact (Income_forced false _) | exact (InvExpense_forced false _) | exact (JrnlFund_forced false _) | exact (JrnlSec_forced false _) | exact (MarginInterest_forced false _) | exact (Reinvest_forced false _) | exact (RetOfCap_forced false _) | exact (SellDebt_forced false _) | exact (SellMF_forced false _) | exact (SellOpt_forced false _) | exact (SellOther_forced false _) | exact (SellStock_forced false _) | exact (Split_forced false _) | exact (Transfer_forced false _)].
Qed.
Lemma InvTransaction_some r : InvTransaction_element r <> [].
Proof. destruct r; discriminate. Qed.
#[export] Hint Resolve InvTransaction_written InvTransaction_some : content.

Lemma InvTranList_written force nm om r : marshal InvTranList_ty force nm om (InvTranList_to r) = Some (InvTranList_element r).
Proof.
  unfold InvTranList_ty, InvTranList_to, InvTranList_element, InvTranList_fields. eapply marshal_custom.
  - repeat (eapply custom_cons; [eauto 6 with content|]). reflexivity.
  - rewrite ?app_nil_r. reflexivity.
Qed.
#[export] Hint Resolve InvTranList_written : content.

Lemma InvPosition_written nm om r : marshal InvPosition_ty false nm om (InvPosition_to r) = Some (InvPosition_element r).
Proof. unfold InvPosition_ty, InvPosition_to, InvPosition_element, InvPosition_fields. written_plain. Qed.
Lemma InvPosition_forced om r : marshal InvPosition_ty true (bs "INVPOS") om (InvPosition_to r) = Some (InvPosition_element r).
Proof. unfold InvPosition_ty, InvPosition_to, InvPosition_element, InvPosition_fields. written_forced. Qed.
#[export] Hint Resolve InvPosition_written InvPosition_forced : content.

Lemma DebtPosition_written nm om r : marshal DebtPosition_ty false nm om (DebtPosition_to r) = Some (DebtPosition_element r).
Proof. unfold DebtPosition_ty, DebtPosition_to, DebtPosition_element, DebtPosition_fields. written_plain. Qed.
Lemma DebtPosition_forced om r : marshal DebtPosition_ty true (bs "POSDEBT") om (DebtPosition_to r) = Some (DebtPosition_element r).
Proof. unfold DebtPosition_ty, DebtPosition_to, DebtPosition_element, DebtPosition_fields. written_forced. Qed.
#[export] Hint Resolve DebtPosition_written DebtPosition_forced : content.

Lemma MFPosition_written nm om r : marshal MFPosition_ty false nm om (MFPosition_to r) = Some (MFPosition_element r).
Proof. unfold MFPosition_ty, MFPosition_to, MFPosition_element, MFPosition_fields. written_plain. Qed.
Lemma MFPosition_forced om r : marshal MFPosition_ty true (bs "POSMF") om (MFPosition_to r) = Some (MFPosition_element r).
Proof. unfold MFPosition_ty, MFPosition_to, MFPosition_element, MFPosition_fields. written_forced. Qed.
#[export] Hint Resolve MFPosition_written MFPosition_forced : content.

Lemma OptPosition_written nm om r : marshal OptPosition_ty false nm om (OptPosition_to r) = Some (OptPosition_element r).
Proof. unfold OptPosition_ty, OptPosition_to, OptPosition_element, OptPosition_fields. written_plain. Qed.
Lemma OptPosition_forced om r : marshal OptPosition_ty true (bs "POSOPT") om (OptPosition_to r) = Some (OptPosition_element r).
Proof. unfold OptPosition_ty, OptPosition_to, OptPosition_element, OptPosition_fields. written_forced. Qed.
#[export] Hint Resolve OptPosition_written OptPosition_forced : content.

Lemma OtherPosition_written nm om r : marshal OtherPosition_ty false nm om (OtherPosition_to r) = Some (OtherPosition_element r).
Proof. unfold OtherPosition_ty, OtherPosition_to, OtherPosition_element, OtherPosition_fields. written_plain. Qed.
Lemma OtherPosition_forced om r : marshal OtherPosition_ty true (bs "POSOTHER") om (OtherPosition_to r) = Some (OtherPosition_element r).
Proof. unfold OtherPosition_ty, OtherPosition_to, OtherPosition_element, OtherPosition_fields. written_forced. Qed.
#[export] Hint Resolve OtherPosition_written OtherPosition_forced : content.

Lemma StockPosition_written nm om r : marshal StockPosition_ty false nm om (StockPosition_to r) = Some (StockPosition_element r).
Proof. unfold StockPosition_ty, StockPosition_to, StockPosition_element, StockPosition_fields. written_plain. Qed.
Lemma StockPosition_forced om r : marshal StockPosition_ty true (bs "POSSTOCK") om (StockPosition_to r) = Some (StockPosition_element r).
Proof. unfold StockPosition_ty, StockPosition_to, StockPosition_element, StockPosition_fields. written_forced. Qed.
#[export] Hint Resolve StockPosition_written StockPosition_forced : content.

Lemma InvBalance_written nm om r : marshal InvBalance_ty false nm om (InvBalance_to r) = Some (InvBalance_element r).
Proof. unfold InvBalance_ty, InvBalance_to, InvBalance_element, InvBalance_fields. written_plain. Qed.
Lemma InvBalance_forced om r : marshal InvBalance_ty true (bs "INVBAL") om (InvBalance_to r) = Some (InvBalance_element r).
Proof. unfold InvBalance_ty, InvBalance_to, InvBalance_element, InvBalance_fields. written_forced. Qed.
#[export] Hint Resolve InvBalance_written InvBalance_forced : content.

Lemma OO_written nm om r : marshal OO_ty false nm om (OO_to r) = Some (OO_element r).
Proof. unfold OO_ty, OO_to, OO_element, OO_fields. written_plain. Qed.
Lemma OO_forced om r : marshal OO_ty true (bs "OO") om (OO_to r) = Some (OO_element r).
Proof. unfold OO_ty, OO_to, OO_element, OO_fields. written_forced. Qed.
#[export] Hint Resolve OO_written OO_forced : content.

Lemma OOBuyDebt_written nm om r : marshal OOBuyDebt_ty false nm om (OOBuyDebt_to r) = Some (OOBuyDebt_element r).
Proof. unfold OOBuyDebt_ty, OOBuyDebt_to, OOBuyDebt_element, OOBuyDebt_fields. written_plain. Qed.
Lemma OOBuyDebt_forced om r : marshal OOBuyDebt_ty true (bs "OOBUYDEBT") om (OOBuyDebt_to r) = Some (OOBuyDebt_element r).
Proof. unfold OOBuyDebt_ty, OOBuyDebt_to, OOBuyDebt_element, OOBuyDebt_fields. written_forced. Qed.
#[export] Hint Resolve OOBuyDebt_written OOBuyDebt_forced : content.

Lemma OOBuyMF_written nm om r : marshal OOBuyMF_ty false nm om (OOBuyMF_to r) = Some (OOBuyMF_element r).
Proof. unfold OOBuyMF_ty, OOBuyMF_to, OOBuyMF_element, OOBuyMF_fields. written_plain. Qed.
Lemma OOBuyMF_forced om r : marshal OOBuyMF_ty true (bs "OOBUYMF") om (OOBuyMF_to r) = Some (OOBuyMF_element r).
Proof. unfold OOBuyMF_ty, OOBuyMF_to, OOBuyMF_element, OOBuyMF_fields. written_forced. Qed.
#[export] Hint Resolve OOBuyMF_written OOBuyMF_forced : content.

Lemma OOBuyOpt_written nm om r : marshal OOBuyOpt_ty false nm om (OOBuyOpt_to r) = Some (OOBuyOpt_element r).
Proof. unfold OOBuyOpt_ty, OOBuyOpt_to, OOBuyOpt_element, OOBuyOpt_fields. written_plain. Qed.
Lemma OOBuyOpt_forced om r : marshal OOBuyOpt_ty true (bs "OOBUYOPT") om (OOBuyOpt_to r) = Some (OOBuyOpt_element r).
Proof. unfold OOBuyOpt_ty, OOBuyOpt_to, OOBuyOpt_element, OOBuyOpt_fields. written_forced. Qed.
#[export] Hint Resolve OOBuyOpt_written OOBuyOpt_forced : content.

Lemma OOBuyOther_written nm om r : marshal OOBuyOther_ty false nm om (OOBuyOther_to r) = Some (OOBuyOther_element r).
Proof. unfold OOBuyOther_ty, OOBuyOther_to, OOBuyOther_element, OOBuyOther_fields. written_plain. Qed.
Lemma OOBuyOther_forced om r : marshal OOBuyOther_ty true (bs "OOBUYOTHER") om (OOBuyOther_to r) = Some (OOBuyOther_element r).
Proof. unfold OOBuyOther_ty, OOBuyOther_to, OOBuyOther_element, OOBuyOther_fields. written_forced. Qed.
#[export] Hint Resolve OOBuyOther_written OOBuyOther_forced : content.

Lemma OOBuyStock_written nm om r : marshal OOBuyStock_ty false nm om (OOBuyStock_to r) = Some (OOBuyStock_element r).
Proof. unfold OOBuyStock_ty, OOBuyStock_to, OOBuyStock_element, OOBuyStock_fields. written_plain. Qed.
Lemma OOBuyStock_forced om r : marshal OOBuyStock_ty true (bs "OOBUYSTOCK") om (OOBuyStock_to r) = Some (OOBuyStock_element r).
Proof. unfold OOBuyStock_ty, OOBuyStock_to, OOBuyStock_element, OOBuyStock_fields. written_forced. Qed.
#[export] Hint Resolve OOBuyStock_written OOBuyStock_forced : content.

Lemma OOSellDebt_written nm om r : marshal OOSellDebt_ty false nm om (OOSellDebt_to r) = Some (OOSellDebt_element r).
Proof. unfold OOSellDebt_ty, OOSellDebt_to, OOSellDebt_element, OOSellDebt_fields. written_plain. Qed.
Lemma OOSellDebt_forced om r : marshal OOSellDebt_ty true (bs "OOSELLDEBT") om (OOSellDebt_to r) = Some (OOSellDebt_element r).
Proof. unfold OOSellDebt_ty, OOSellDebt_to, OOSellDebt_element, OOSellDebt_fields. written_forced. Qed.
#[export] Hint Resolve OOSellDebt_written OOSellDebt_forced : content.

Lemma OOSellMF_written nm om r : marshal OOSellMF_ty false nm om (OOSellMF_to r) = Some (OOSellMF_element r).
Proof. unfold OOSellMF_ty, OOSellMF_to, OOSellMF_element, OOSellMF_fields. written_plain. Qed.
Lemma OOSellMF_forced om r : marshal OOSellMF_ty true (bs "OOSELLMF") om (OOSellMF_to r) = Some (OOSellMF_element r).
Proof. unfold OOSellMF_ty, OOSellMF_to, OOSellMF_element, OOSellMF_fields. written_forced. Qed.
#[export] Hint Resolve OOSellMF_written OOSellMF_forced : content.

Lemma OOSellOpt_written nm om r : marshal OOSellOpt_ty false nm om (OOSellOpt_to r) = Some (OOSellOpt_element r).
Proof. unfold OOSellOpt_ty, OOSellOpt_to, OOSellOpt_element, OOSellOpt_fields. written_plain. Qed.
Lemma OOSellOpt_forced om r : marshal OOSellOpt_ty true (bs "OOSELLOPT") om (OOSellOpt_to r) = Some (OOSellOpt_element r).
Proof. unfold OOSellOpt_ty, OOSellOpt_to, OOSellOpt_element, OOSellOpt_fields. written_forced. Qed.
#[export] Hint Resolve OOSellOpt_written OOSellOpt_forced : content.

Lemma OOSellOther_written nm om r : marshal OOSellOther_ty false nm om (OOSellOther_to r) = Some (OOSellOther_element r).
Proof. unfold OOSellOther_ty, OOSellOther_to, OOSellOther_element, OOSellOther_fields. written_plain. Qed.
Lemma OOSellOther_forced om r : marshal OOSellOther_ty true (bs "OOSELLOTHER") om (OOSellOther_to r) = Some (OOSellOther_element r).
Proof. unfold OOSellOther_ty, OOSellOther_to, OOSellOther_element, OOSellOther_fields. written_forced. Qed.
#[export] Hint Resolve OOSellOther_written OOSellOther_forced : content.

Lemma OOSellStock_written nm om r : marshal OOSellStock_ty false nm om (OOSellStock_to r) = Some (OOSellStock_element r).
Proof. unfold OOSellStock_ty, OOSellStock_to, OOSellStock_element, OOSellStock_fields. written_plain. Qed.
Lemma OOSellStock_forced om r : marshal OOSellStock_ty true (bs "OOSELLSTOCK") om (OOSellStock_to r) = Some (OOSellStock_element r).
Proof. unfold OOSellStock_ty, OOSellStock_to, OOSellStock_element, OOSellStock_fields. written_forced. Qed.
#[export] Hint Resolve OOSellStock_written OOSellStock_forced : content.

Lemma OOSwitchMF_written nm om r : marshal OOSwitchMF_ty false nm om (OOSwitchMF_to r) = Some (OOSwitchMF_element r).
Proof. unfold OOSwitchMF_ty, OOSwitchMF_to, OOSwitchMF_element, OOSwitchMF_fields. written_plain. Qed.
Lemma OOSwitchMF_forced om r : marshal OOSwitchMF_ty true (bs "SWITCHMF") om (OOSwitchMF_to r) = Some (OOSwitchMF_element r).
Proof. unfold OOSwitchMF_ty, OOSwitchMF_to, OOSwitchMF_element, OOSwitchMF_fields. written_forced. Qed.
#[export] Hint Resolve OOSwitchMF_written OOSwitchMF_forced : content.

Lemma ContribSecurity_written nm om r : marshal ContribSecurity_ty false nm om (ContribSecurity_to r) = Some (ContribSecurity_element r).
Proof. unfold ContribSecurity_ty, ContribSecurity_to, ContribSecurity_element, ContribSecurity_fields. written_plain. Qed.
Lemma ContribSecurity_forced om r : marshal ContribSecurity_ty true (bs "CONTRIBSECURITY") om (ContribSecurity_to r) = Some (ContribSecurity_element r).
Proof. unfold ContribSecurity_ty, ContribSecurity_to, ContribSecurity_element, ContribSecurity_fields. written_forced. Qed.
#[export] Hint Resolve ContribSecurity_written ContribSecurity_forced : content.

Lemma VestInfo_written nm om r : marshal VestInfo_ty false nm om (VestInfo_to r) = Some (VestInfo_element r).
Proof. unfold VestInfo_ty, VestInfo_to, VestInfo_element, VestInfo_fields. written_plain. Qed.
Lemma VestInfo_forced om r : marshal VestInfo_ty true (bs "VESTINFO") om (VestInfo_to r) = Some (VestInfo_element r).
Proof. unfold VestInfo_ty, VestInfo_to, VestInfo_element, VestInfo_fields. written_forced. Qed.
#[export] Hint Resolve VestInfo_written VestInfo_forced : content.

Lemma LoanInfo_written nm om r : marshal LoanInfo_ty false nm om (LoanInfo_to r) = Some (LoanInfo_element r).
Proof. unfold LoanInfo_ty, LoanInfo_to, LoanInfo_element, LoanInfo_fields. written_plain. Qed.
Lemma LoanInfo_forced om r : marshal LoanInfo_ty true (bs "VESTINFO") om (LoanInfo_to r) = Some (LoanInfo_element r).
Proof. unfold LoanInfo_ty, LoanInfo_to, LoanInfo_element, LoanInfo_fields. written_forced. Qed.
#[export] Hint Resolve LoanInfo_written LoanInfo_forced : content.

Lemma Inv401KSummaryAggregate_written force nm om r : marshal Inv401KSummaryAggregate_ty force (bs nm) om (Inv401KSummaryAggregate_to r) = Some (Inv401KSummaryAggregate_element nm r).
Proof. unfold Inv401KSummaryAggregate_ty, Inv401KSummaryAggregate_to, Inv401KSummaryAggregate_element, Inv401KSummaryAggregate_fields. written_named. Qed.
#[export] Hint Resolve Inv401KSummaryAggregate_written : content.

Lemma Inv401KSummaryPeriod_written force nm om r : marshal Inv401KSummaryPeriod_ty force (bs nm) om (Inv401KSummaryPeriod_to r) = Some (Inv401KSummaryPeriod_element nm r).
Proof. unfold Inv401KSummaryPeriod_ty, Inv401KSummaryPeriod_to, Inv401KSummaryPeriod_element, Inv401KSummaryPeriod_fields. written_named. Qed.
#[export] Hint Resolve Inv401KSummaryPeriod_written : content.

Lemma Inv401K_written nm om r : marshal Inv401K_ty false nm om (Inv401K_to r) = Some (Inv401K_element r).
Proof. unfold Inv401K_ty, Inv401K_to, Inv401K_element, Inv401K_fields. written_plain. Qed.
Lemma Inv401K_forced om r : marshal Inv401K_ty true (bs "INV401K") om (Inv401K_to r) = Some (Inv401K_element r).
Proof. unfold Inv401K_ty, Inv401K_to, Inv401K_element, Inv401K_fields. written_forced. Qed.
#[export] Hint Resolve Inv401K_written Inv401K_forced : content.

Lemma Inv401KBal_written nm om r : marshal Inv401KBal_ty false nm om (Inv401KBal_to r) = Some (Inv401KBal_element r).
Proof. unfold Inv401KBal_ty, Inv401KBal_to, Inv401KBal_element, Inv401KBal_fields. written_plain. Qed.
Lemma Inv401KBal_forced om r : marshal Inv401KBal_ty true (bs "INV401KBAL") om (Inv401KBal_to r) = Some (Inv401KBal_element r).
Proof. unfold Inv401KBal_ty, Inv401KBal_to, Inv401KBal_element, Inv401KBal_fields. written_forced. Qed.
#[export] Hint Resolve Inv401KBal_written Inv401KBal_forced : content.

Lemma Position_written r : marshal_alt Position_alts (Position_to r) = Some (Position_element r).
Proof.
  destruct r; [exact (DebtPosition_forced false _) | exact (MFPosition_forced false _) | exact (OptPosition_forced false _) | exact (OtherPosition_forced false _) | exact (StockPosition_forced false _)].
Qed.
Lemma Position_some r : Position_element r <> [].
Proof. destruct r; discriminate. Qed.
#[export] Hint Resolve Position_written Position_some : content.

Lemma OpenOrder_written r : marshal_alt OpenOrder_alts (OpenOrder_to r) = Some (OpenOrder_element r).
Proof.
  destruct r; [exact (OOBuyDebt_forced false _) | exact (OOBuyMF_forced false _) | exact (OOBuyOpt_forced false _) | exact (OOBuyOther_forced false _) | exact (OOBuyStock_forced false _) | exact (OOSellDebt_forced false _) | exact (OOSellMF_forced false _) | exact (OOSellOpt_forced false _) | exact (OOSellOther_forced false _) | exact (OOSellStock_forced false _) | exact (OOSwitchMF_forced false _)].
Qed.
Lemma OpenOrder_some r : OpenOrder_element r <> [].
Proof. destruct r; discriminate. Qed.
#[export] Hint Resolve OpenOrder_written OpenOrder_some : content.

Lemma InvStatementResponse_written nm om r : marshal InvStatementResponse_ty false nm om (InvStatementResponse_to r) = Some (InvStatementResponse_element r).
Proof. unfold InvStatementResponse_ty, InvStatementResponse_to, InvStatementResponse_element, InvStatementResponse_fields. written_plain. Qed.
Lemma InvStatementResponse_forced om r : marshal InvStatementResponse_ty true (bs "INVSTMTTRNRS") om (InvStatementResponse_to r) = Some (InvStatementResponse_element r).
Proof. unfold InvStatementResponse_ty, InvStatementResponse_to, InvStatementResponse_element, InvStatementResponse_fields. written_forced. Qed.
#[export] Hint Resolve InvStatementResponse_written InvStatementResponse_forced : content.

Lemma ProfileRequest_written nm om r : marshal ProfileRequest_ty false nm om (ProfileRequest_to r) = Some (ProfileRequest_element r).
Proof. unfold ProfileRequest_ty, ProfileRequest_to, ProfileRequest_element, ProfileRequest_fields. written_plain. Qed.
Lemma ProfileRequest_forced om r : marshal ProfileRequest_ty true (bs "PROFTRNRQ") om (ProfileRequest_to r) = Some (ProfileRequest_element r).
Proof. unfold ProfileRequest_ty, ProfileRequest_to, ProfileRequest_element, ProfileRequest_fields. written_forced. Qed.
#[export] Hint Resolve ProfileRequest_written ProfileRequest_forced : content.

Lemma SignonInfo_written nm om r : marshal SignonInfo_ty false nm om (SignonInfo_to r) = Some (SignonInfo_element r).
Proof. unfold SignonInfo_ty, SignonInfo_to, SignonInfo_element, SignonInfo_fields. written_plain. Qed.
Lemma SignonInfo_forced om r : marshal SignonInfo_ty true (bs "SIGNONINFO") om (SignonInfo_to r) = Some (SignonInfo_element r).
Proof. unfold SignonInfo_ty, SignonInfo_to, SignonInfo_element, SignonInfo_fields. written_forced. Qed.
#[export] Hint Resolve SignonInfo_written SignonInfo_forced : content.

(** ** Profiles *)

Definition message_set_marshal (fs : flds) (m : str * interp_flds fs) : option (list node) :=
  let '(nm, r) := m in
  if not_v1 nm || null (trim_v1 nm) then None
  else c <- struct_cmds fs [] r ;;
       Some [Elem (trim_v1 nm) [Elem nm (Elem (bs "Name") (text_kids nm) :: content c)]].

Lemma marshal_message_sets fs force nm v :
  marshal (TMsgSets fs) force nm false v =
  (k <- concat_opt (message_set_marshal fs) v ;; Some [Elem (bs "MSGSETLIST") k]).
Proof. reflexivity. Qed.

Lemma MessageSet_written m : message_set_name (MessageSet_Name m) ->
  message_set_marshal MessageSet_fields (MessageSet_to m) = Some (MessageSet_element m).
Proof.
  intros Hm. apply (proj2 (good_set_name_iff _)) in Hm. unfold good_set_name in Hm.
  unfold message_set_marshal. change (MessageSet_to m) with (MessageSet_Name m, snd (MessageSet_to m)).
  cbv iota beta. rewrite Hm.
  assert (Hp : exists l, pieces MessageSet_fields (snd (MessageSet_to m)) = Some l /\
    assembled l = inside "MSGSETCORE" (
        number "VER" (MessageSet_Ver m) ++
        text "URL" (MessageSet_URL m) ++
        choice "OFXSEC" enum_ofxSec (MessageSet_OfxSec m) ++
        flag "TRANSPSEC" (MessageSet_TranspSec m) ++
        text "SIGNONREALM" (MessageSet_SignonRealm m) ++
        each (text "LANGUAGE") (MessageSet_Language m) ++
        choice "SYNCMODE" enum_syncMode (MessageSet_SyncMode m) ++
        opt_flag "REFRESHSUPT" (MessageSet_RefreshSupt m) ++
        flag "RESPFILEER" (MessageSet_RespFileER m) ++
        text "SPNAME" (MessageSet_SpName m))).
  { eexists. split; [unfold MessageSet_fields, MessageSet_to; cbn [snd]; fields|]. nils; hide_nodes; nest. }
  destruct Hp as (l & Hl & Ha). rewrite struct_pieces, Hl. cbn [option_map bind]. unfold content.
  rewrite build_commands. fold (assembled l). rewrite Ha. reflexivity.
Qed.

Lemma message_sets_written l : Forall (fun s => message_set_name (MessageSet_Name s)) l ->
  concat_opt (message_set_marshal MessageSet_fields) (map MessageSet_to l) = Some (each MessageSet_element l).
Proof.
  induction 1 as [|m l Hm _ IH]; [reflexivity|].
  cbn [map concat_opt]. rewrite (MessageSet_written m Hm). cbn [bind]. rewrite IH. reflexivity.
Qed.

Lemma ProfileResponse_written r : encodable (MsgProfileResponse r) ->
  marshal ProfileResponse_ty false [] false (ProfileResponse_to r) = Some (ProfileResponse_element r).
Proof.
  intros H. cbn [encodable] in H.
  assert (Hk : forall force nm,
    marshal (TMsgSets MessageSet_fields) force nm false (map MessageSet_to (ProfileResponse_MessageSetList r)) =
    Some (inside "MSGSETLIST" (each MessageSet_element (ProfileResponse_MessageSetList r)))).
  { intros force nm. rewrite marshal_message_sets, (message_sets_written _ H). reflexivity. }
  unfold ProfileResponse_ty, ProfileResponse_to, ProfileResponse_element, ProfileResponse_fields.
  eapply struct_plain; [| | reflexivity].
  - repeat (eapply pieces_cons; [first [apply Hk | eauto 6 with content]|]); apply pieces_nil.
  - nils; hide_nodes; nest.
Qed.

(** ** Messages and documents *)

Theorem message_written m : encodable m -> encode_message m = Some (message_element m).
Proof.
  intros H. destruct m; cbn [encode_message message_element]; unfold encode_as.
  1: apply AcctInfoRequest_written.
  1: apply StatementRequest_written.
  1: apply CCStatementRequest_written.
  1: apply InvStatementRequest_written.
  1: apply SecListRequest_written.
  1: apply ProfileRequest_written.
  1: apply AcctInfoResponse_written.
  1: apply StatementResponse_written.
  1: apply CCStatementResponse_written.
  1: apply InvStatementResponse_written.
  1: apply SecListResponse_written.
  1: apply SecurityList_written.
  apply ProfileResponse_written. exact H.
Qed.

Lemma encoded_element m n : encode_message m = Some n -> n = message_element m.
Proof.
  intros H. assert (He : encodable m) by (apply encode_message_iff; rewrite H; discriminate).
  rewrite (message_written m He) in H. congruence.
Qed.

Lemma sets_elements_written tbl ns : sets_written encodes tbl ns ->
  ns = sets_elements (map (fun p => (fst p, map sent (snd p))) tbl).
Proof.
  induction 1 as [|set tbl ns _ IH|set ms kids tbl ns Hm HF _ IH]; [reflexivity| |].
  - cbn [map fst snd sets_elements flat_map app]. exact IH.
  - assert (Hk : kids = flat_map message_element (map sent ms)).
    { clear Hm. induction HF as [|m n ms kids Hmn _ IHF]; [reflexivity|].
      apply encoded_element in Hmn. cbn [map flat_map]. rewrite <- Hmn, <- IHF. reflexivity. }
    subst kids ns. destruct ms as [|m ms]; [congruence|]. reflexivity.
Qed.

Lemma request_written q t q' : request_tree q = Some (t, q') -> t = request_document q /\ q' = sent_request q.
Proof.
  intros H. apply request_tree_spec in H as (Hq & k & ns & -> & Es & HW). split; [|exact Hq].
  apply sets_elements_written in HW. unfold encode_as in Es. rewrite SignonRequest_written in Es.
  assert (E : [Elem (bs "SONRQ") k] = SignonRequest_element (sent_signon (rq_signon q))) by congruence.
  unfold request_document, inside. rewrite <- E, HW. reflexivity.
Qed.

Lemma response_sent s version : slots_acceptable version (response_sets s) ->
  map (fun p => (fst p, map sent (snd p))) (response_sets s) = response_sets s.
Proof.
  intros H. rewrite <- (map_id (response_sets s)) at 2. apply map_ext_in. intros [set ms] Hin. cbn [fst snd]. f_equal.
  rewrite <- (map_id ms) at 2. apply map_ext_in. intros m Hm.
  destruct (H set ms m Hin Hm) as (Hb & _ & _).
  assert (Hs : In set (map fst (response_sets s))) by (apply in_map_iff; exists (set, ms); auto).
  rewrite <- Hb in Hs. clear - Hs. destruct m; try reflexivity. exfalso. cbn in Hs.
  decompose [or] Hs; try contradiction; discriminate.
Qed.

Lemma response_written r t : response_tree r = Some t -> t = response_document r.
Proof.
  intros H. assert (Hacc : slots_acceptable (rs_version r) (response_sets (rs_slots r))).
  { apply (response_tree_iff r). rewrite H. discriminate. }
  apply response_tree_spec in H as (k & ns & -> & Es & HW).
  apply sets_elements_written in HW. rewrite (response_sent _ _ Hacc) in HW.
  unfold encode_as in Es. rewrite SignonResponse_written in Es.
  assert (E : [Elem (bs "SONRS") k] = SignonResponse_element (rs_signon r)) by congruence.
  unfold response_document, inside. rewrite <- E, HW. reflexivity.
Qed.
