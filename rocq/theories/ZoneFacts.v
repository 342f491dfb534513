(** What is read does not depend on the time zone of the machine. *)
From Coq Require Import QArith Lia.
From Verif Require Import GoStr SpecStr GoStrFacts GoTime Types Enums EnumTables Records Common Messages Codec CodecFacts Schema SchemaInv
  Document SpecDocument DocumentFacts SetsFacts FilingFacts CodecSim Wire SpecZone.
Close Scope Q_scope.

(** Two results that are the same when [f] is applied to them. *)
Definition like {A B} (f : A -> B) (x y : option A) : Prop := option_map f x = option_map f y.

Lemma like_inv {A B} (f : A -> B) x y : like f x y ->
  (exists a b, x = Some a /\ y = Some b /\ f a = f b) \/ (x = None /\ y = None).
Proof. unfold like. destruct x, y; cbn; intros H; try discriminate; [left; injection H as H; eauto|right; auto]. Qed.

Lemma like_map {A B C D} (f : A -> B) (g : C -> D) (h1 h2 : A -> C) x y : like f x y ->
  (forall a b, f a = f b -> g (h1 a) = g (h2 b)) -> like g (option_map h1 x) (option_map h2 y).
Proof. intros H Hg. apply like_inv in H as [(a & b & -> & -> & E)|[-> ->]]; [|reflexivity]. unfold like. cbn. f_equal. auto. Qed.

(** ** Dates *)

Definition named (local : Z -> str * Z) (p : pstate) (off : Z) (t : gotime) : option gotime :=
  let '(lname, loff) := local (t_ns t / sec_ns)%Z in
  if ((loff =? off)%Z && match p_name p with [] => true | _ => false end)%bool then Some (mkTime (t_ns t) off lname) else Some t.

Lemma named_like l1 l2 p off t : t_off t = off -> like unnamed (named l1 p off t) (named l2 p off t).
Proof.
  intros E. unfold named. destruct (l1 _) as [n1 o1], (l2 _) as [n2 o2].
  destruct ((o1 =? off)%Z && _)%bool, ((o2 =? off)%Z && _)%bool; unfold like, unnamed; cbn [option_map t_ns t_off]; rewrite ?E; reflexivity.
Qed.

Lemma time_parse_like l1 l2 fmt v : like unnamed (time_parse l1 fmt v) (time_parse l2 fmt v).
Proof.
  unfold time_parse. destruct (parse_chunks fmt p_init v) as [p|]; [|reflexivity]. destruct (_ || _)%bool; [reflexivity|].
  cbv zeta. destruct (p_utc p); [reflexivity|]. destruct (p_off p) as [off|]; [|reflexivity].
  apply (named_like l1 l2 p off (go_date (p_year p) (p_month p) (p_day p) (p_hour p) (p_min p) (p_sec p) (p_ns p) off (p_name p))). reflexivity.
Qed.

Lemma try_formats_like l1 l2 fmts zf v : like unnamed (try_formats l1 fmts zf v) (try_formats l2 fmts zf v).
Proof.
  induction fmts as [|f fmts IH]; [reflexivity|]. cbn [try_formats].
  destruct (like_inv _ _ _ (time_parse_like l1 l2 (f ++ zf) v)) as [(a & b & -> & -> & E)|[-> ->]]; [|exact IH].
  unfold like. cbn. f_equal. exact E.
Qed.

Lemma date_like e1 e2 s : like unnamed (date_unmarshal e1 s) (date_unmarshal e2 s).
Proof.
  unfold date_unmarshal. cbv zeta. destruct (split2 (bs "[") _) as [[v z]|]; [|apply try_formats_like].
  destruct (date_zone z) as [[zone zfmt]|]; [apply try_formats_like|reflexivity].
Qed.

Lemma leaf_like e1 e2 l s : same_currencies e1 e2 -> like (leaf_unnamed l) (leaf_unmarshal e1 l s) (leaf_unmarshal e2 l s).
Proof.
  intros H. destruct l; cbn [leaf_unmarshal leaf_unnamed]; try reflexivity; [apply date_like|].
  unfold curr_unmarshal, parse_iso. destruct (negb _); [reflexivity|]. destruct (fix_case_all _); [|reflexivity]. rewrite H. reflexivity.
Qed.

(** ** Values *)

Definition agree (k1 k2 : decoder) : Prop :=
  forall t v w, no_names t v = no_names t w -> like (no_names t) (k1 t v) (k2 t w).

Lemma match_alts_like k1 k2 : agree k1 k2 -> forall a nm, like (no_names_alts a) (match_alts a nm k1) (match_alts a nm k2).
Proof.
  intros Hk. induction a as [|rd wr t a IH]; intros nm; [reflexivity|]. cbn [match_alts]. destruct (str_eqb rd nm).
  - apply (like_map (no_names t)); [apply Hk; reflexivity|]. intros x y E. cbn. f_equal. exact E.
  - apply (like_map (no_names_alts a)); [apply IH|]. intros x y E. cbn. f_equal. exact E.
Qed.

Lemma match_fields_like k1 k2 nm : agree k1 k2 -> forall fs ps v w, no_names_flds fs v = no_names_flds fs w ->
  match match_fields fs ps nm k1 v, match_fields fs ps nm k2 w with
  | NoMatch, NoMatch => True
  | Prefix, Prefix => True
  | Hit x, Hit y => like (no_names_flds fs) x y
  | _, _ => False
  end.
Proof.
  intros Hk. induction fs as [|qs n om t fs IH]; intros ps v w E; [exact I|]. destruct v as [v1 v2], w as [w1 w2].
  cbn [no_names_flds fst snd] in E. injection E as E1 E2. cbn [match_fields fst snd].
  assert (Hnext : match found_map (pair v1) (match_fields fs ps nm k1 v2), found_map (pair w1) (match_fields fs ps nm k2 w2) with
    | NoMatch, NoMatch => True | Prefix, Prefix => True
    | Hit x, Hit y => like (no_names_flds (FCons qs n om t fs)) x y | _, _ => False end).
  { specialize (IH ps v2 w2 E2). destruct (match_fields fs ps nm k1 v2) as [| |x], (match_fields fs ps nm k2 w2) as [| |y]; cbn [found_map]; try exact IH.
    apply (like_map (no_names_flds fs)); [exact IH|]. intros a b E. cbn. f_equal; assumption. }
  destruct (strip_prefix ps qs) as [[|p q]|]; [|destruct (str_eqb p nm); [exact I|exact Hnext]|exact Hnext].
  destruct (str_eqb n nm); [|exact Hnext].
  apply (like_map (no_names t)); [apply Hk; exact E1|]. intros a b E. cbn. f_equal; assumption.
Qed.

Lemma match_custom_like k1 k2 nm : agree k1 k2 -> forall fs v w, no_names_flds fs v = no_names_flds fs w ->
  like (no_names_flds fs) (match_custom fs nm k1 v) (match_custom fs nm k2 w).
Proof.
  intros Hk. induction fs as [|qs n om t fs IH]; intros v w E; [reflexivity|]. destruct v as [v1 v2], w as [w1 w2].
  cbn [no_names_flds fst snd] in E. injection E as E1 E2. cbn [match_custom fst snd].
  destruct (match t with TAlts a => has_alt a nm | _ => str_eqb n nm end).
  - apply (like_map (no_names t)); [apply Hk; exact E1|]. intros a b E. cbn. f_equal; assumption.
  - apply (like_map (no_names_flds fs)); [apply IH; exact E2|]. intros a b E. cbn. f_equal; assumption.
Qed.

Lemma run_all_like {A B C} (f : A -> B) (g1 g2 : C -> A -> option A) l :
  Forall (fun x => forall v w, f v = f w -> like f (g1 x v) (g2 x w)) l ->
  forall v w, f v = f w -> like f (run_all (map g1 l) v) (run_all (map g2 l) w).
Proof.
  induction 1 as [|x l Hx _ IH]; intros v w E; [unfold like; cbn; f_equal; exact E|].
  cbn [map run_all]. destruct (like_inv _ _ _ (Hx v w E)) as [(a & b & -> & -> & E')|[-> ->]]; [|reflexivity]. cbn [bind]. apply IH, E'.
Qed.

Definition agrees (e1 e2 : env) (n : node) : Prop :=
  agree (d_value (decode e1 n)) (d_value (decode e2 n)) /\
  (forall fs ps v w, no_names_flds fs v = no_names_flds fs w -> like (no_names_flds fs) (d_walk (decode e1 n) fs ps v) (d_walk (decode e2 n) fs ps w)) /\
  (forall fs, like (fun x : str * interp_flds fs => (fst x, no_names_flds fs (snd x))) (d_msgset (decode e1 n) fs) (d_msgset (decode e2 n) fs)).

Lemma walks_like e1 e2 kids : Forall (agrees e1 e2) kids -> forall fs ps v w, no_names_flds fs v = no_names_flds fs w ->
  like (no_names_flds fs) (walks e1 fs ps kids v) (walks e2 fs ps kids w).
Proof.
  intros H fs ps. unfold walks. apply run_all_like. revert H. apply Forall_impl. intros n (_ & H & _) v w. apply H.
Qed.

Lemma steps_like {A B} e1 e2 (f : A -> B) (g1 g2 : node -> str -> A -> option A) kids :
  Forall (fun n => forall nm v w, f v = f w -> like f (g1 n nm v) (g2 n nm w)) kids ->
  forall v w, f v = f w -> like f (steps e1 g1 kids v) (steps e2 g2 kids w).
Proof.
  intros H. unfold steps. apply run_all_like. revert H. apply Forall_impl. intros n H v w E.
  destruct n as [nm k|s|]; cbn [token_step]; [apply H, E| |reflexivity]. destruct (blank s); [unfold like; cbn; f_equal; exact E|reflexivity].
Qed.

Lemma snoc_like {A B} (f : A -> B) v w x y : map f v = map f w -> f x = f y -> map f (v ++ [x]) = map f (w ++ [y]).
Proof. intros H E. rewrite !map_app, H. cbn. f_equal. f_equal. exact E. Qed.

Theorem decode_agrees e1 e2 n : same_currencies e1 e2 -> agrees e1 e2 n.
Proof.
  intros He. induction n as [nm kids Hkids|s|] using node_ind'.
  2,3: split; [intros t v w _; reflexivity|]; split; [intros fs ps v w E; unfold like; cbn; f_equal; exact E|reflexivity].
  assert (Hv : agree (d_value (decode e1 (Elem nm kids))) (d_value (decode e2 (Elem nm kids)))).
  { unfold agree.
    cut ((forall t v w, no_names t v = no_names t w -> like (no_names t) (unmarshal e1 t (Elem nm kids) v) (unmarshal e2 t (Elem nm kids) w)) /\
         (forall fs : flds, True) /\
         (forall a, like (no_names_alts a) (match_alts a nm (d_value (decode e1 (Elem nm kids)))) (match_alts a nm (d_value (decode e2 (Elem nm kids)))))); [intros H; apply H|].
    apply schema_ind.
    - intros l v w _. rewrite !unmarshal_leaf. apply (leaf_like e1 e2 l _ He).
    - intros x fs _ v w E. rewrite !unmarshal_struct. destruct (_ && _)%bool; [reflexivity|]. exact (walks_like e1 e2 kids Hkids fs [] v w E).
    - intros t IHt v w E. rewrite !unmarshal_ptr. apply (like_map (no_names t)); [|intros a b X; cbn; f_equal; exact X].
      apply IHt. destruct v, w; try discriminate E; [cbn in E; injection E as E; exact E|reflexivity].
    - intros t IHt v w E. rewrite !unmarshal_slice. apply (like_map (no_names t)); [apply IHt; reflexivity|]. intros a b X. apply snoc_like; assumption.
    - intros x fs _ v w E. rewrite !unmarshal_custom. revert v w E. apply (steps_like e1 e2 (no_names_flds fs)).
      revert Hkids. apply Forall_impl. intros n (Hn & _) m v w E. unfold cust_step. apply match_custom_like; assumption.
    - intros a IHa v w E. rewrite !unmarshal_alts. apply (like_map (no_names_alts a)); [exact IHa|]. intros x y X. apply snoc_like; assumption.
    - intros x a _ v w E. rewrite !unmarshal_altlist. revert v w E. apply (steps_like e1 e2 (map (no_names_alts a))).
      revert Hkids. apply Forall_impl. intros n (Hn & _) m v w E. unfold alt_step.
      apply (like_map (no_names_alts a)); [apply match_alts_like, Hn|]. intros y z X. apply snoc_like; assumption.
    - intros fs _ v w E. rewrite !unmarshal_msgsets. revert v w E. apply (steps_like e1 e2 (map (fun x : str * interp_flds fs => (fst x, no_names_flds fs (snd x))))).
      revert Hkids. apply Forall_impl. intros n (_ & _ & Hn) m v w E. unfold msgset_step.
      eapply like_map; [apply Hn|]. intros y z X. apply snoc_like; assumption.
    - exact I.
    - intros; exact I.
    - reflexivity.
    - intros rd wr t IHt a IHa. cbn [match_alts]. destruct (str_eqb rd nm).
      + apply (like_map (no_names t)); [apply IHt; reflexivity|]. intros x y E. cbn. f_equal. exact E.
      + apply (like_map (no_names_alts a)); [apply IHa|]. intros x y E. cbn. f_equal. exact E. }
  split; [exact Hv|]. split.
  - intros fs ps v w E. rewrite !walk_elem. pose proof (match_fields_like _ _ nm Hv fs ps v w E) as H.
    destruct (match_fields fs ps nm _ v) as [| |x], (match_fields fs ps nm _ w) as [| |y]; try contradiction; [| |exact H].
    + unfold like. cbn. f_equal. exact E.
    + exact (walks_like e1 e2 kids Hkids _ _ _ _ E).
  - intros fs. rewrite !msgset_elem. destruct (solid kids) as [|[vn k| |] [|]] eqn:E; try reflexivity.
    assert (Hin : In (Elem vn k) kids).
    { apply (incl_filter (fun n => match n with Text s => negb (blank s) | _ => true end) kids). fold (solid kids).
      rewrite E. left. reflexivity. }
    destruct (proj1 (Forall_forall _ _) Hkids _ Hin) as (Hk & _).
    apply (like_map (no_names (TStruct [] (FCons [] (bs "Name") false (TLeaf LString) fs)))); [apply Hk; reflexivity|].
    intros [x x'] [y y'] X. cbn [fst snd]. cbn in X. injection X as _ X. f_equal. exact X.
Qed.

Lemma unmarshal_like e1 e2 t n : same_currencies e1 e2 -> like (no_names t) (unmarshal e1 t n (zero t)) (unmarshal e2 t n (zero t)).
Proof. intros H. apply (proj1 (decode_agrees e1 e2 n H)). reflexivity. Qed.

(** ** Responses *)

Lemma message_like e1 e2 set n : same_currencies e1 e2 -> like message_unnamed (decode_message e1 set n) (decode_message e2 set n).
Proof.
  intros He. destruct n as [nm kids|s|]; [|reflexivity|reflexivity]. unfold decode_message. cbv zeta.
  assert (G : forall R t (of : interp t -> R) (to : R -> interp t) (mk : R -> Message),
    (forall v, to (of v) = v) -> (forall x, message_unnamed (mk x) = mk (of (no_names t (to x)))) ->
    like message_unnamed (option_map (fun v => mk (of v)) (unmarshal e1 t (Elem nm kids) (zero t)))
      (option_map (fun v => mk (of v)) (unmarshal e2 t (Elem nm kids) (zero t)))).
  { intros R t of to mk Hi Hm. apply (like_map (no_names t)); [apply unmarshal_like, He|]. intros a b E. rewrite !Hm, !Hi, E. reflexivity. }
  destruct set; try reflexivity; repeat match goal with |- context [if ?b then _ else _] => destruct b; [|try reflexivity] end.
  all: first [ refine (G _ _ _ _ MsgAcctInfoResponse AcctInfoResponse_inv _)
             | refine (G _ _ _ _ MsgStatementResponse StatementResponse_inv _)
             | refine (G _ _ _ _ MsgCCStatementResponse CCStatementResponse_inv _)
             | refine (G _ _ _ _ MsgInvStatementResponse InvStatementResponse_inv _)
             | refine (G _ _ _ _ MsgSecListResponse SecListResponse_inv _)
             | refine (G _ _ _ _ MsgSecurityList SecurityList_inv _)
             | refine (G _ _ _ _ MsgProfileResponse ProfileResponse_inv _) ]; intros; reflexivity.
Qed.

Lemma messages_like e1 e2 set kids : same_currencies e1 e2 ->
  like (map message_unnamed) (decode_messages e1 set kids) (decode_messages e2 set kids).
Proof.
  intros He. induction kids as [|n kids IH]; [reflexivity|]. cbn [decode_messages].
  destruct (like_inv _ _ _ (message_like e1 e2 set n He)) as [(a & b & -> & -> & E)|[-> ->]]; [|reflexivity]. cbn [bind].
  destruct (like_inv _ _ _ IH) as [(la & lb & -> & -> & El)|[-> ->]]; [|reflexivity]. unfold like. cbn. f_equal. f_equal; assumption.
Qed.

Lemma append_unnamed set ms s : slots_unnamed (append_to set ms s) = append_to set (map message_unnamed ms) (slots_unnamed s).
Proof.
  destruct s, set; unfold slots_unnamed; cbn [append_to Document.sl_signup Document.sl_bank Document.sl_creditcard Document.sl_loan Document.sl_invstmt
    Document.sl_interxfer Document.sl_wirexfer Document.sl_billpay Document.sl_email Document.sl_seclist Document.sl_presdir Document.sl_presdlv Document.sl_prof Document.sl_image];
    rewrite ?map_app; reflexivity.
Qed.

Lemma sets_like e1 e2 kids : same_currencies e1 e2 -> forall s1 s2, slots_unnamed s1 = slots_unnamed s2 ->
  like slots_unnamed (decode_sets e1 kids s1) (decode_sets e2 kids s2).
Proof.
  intros He. induction kids as [|[nm sub|t|] kids IH]; intros s1 s2 E; [unfold like; cbn; f_equal; exact E| |reflexivity|reflexivity].
  cbn [decode_sets]. destruct (response_set nm) as [set|]; [|reflexivity]. cbn [bind].
  destruct (like_inv _ _ _ (messages_like e1 e2 set (solid sub) He)) as [(a & b & -> & -> & Em)|[-> ->]]; [|reflexivity]. cbn [bind].
  apply IH. rewrite !append_unnamed, E, Em. reflexivity.
Qed.

Lemma ofx_like e1 e2 v n : same_currencies e1 e2 -> like response_unnamed (decode_ofx e1 v n) (decode_ofx e2 v n).
Proof.
  intros He. destruct n as [nm kids|s|]; [|reflexivity|reflexivity]. cbn [decode_ofx].
  destruct (negb (str_eqb nm (bs "OFX"))); [reflexivity|].
  destruct (solid kids) as [|[sn sk|s|] sets]; try reflexivity.
  destruct (negb (str_eqb sn (msgtype_string (MSignon, Rs)))); [reflexivity|].
  destruct (first_elem sk) as [[x rest]|]; [|reflexivity]. destruct (negb (null (solid rest))); [reflexivity|].
  destruct (like_inv _ _ _ (unmarshal_like e1 e2 SignonResponse_ty x He)) as [(a & b & -> & -> & E)|[-> ->]]; [|reflexivity]. cbn [bind].
  destruct (like_inv _ _ _ (sets_like e1 e2 sets He no_messages no_messages eq_refl)) as [(sa & sb & -> & -> & Es)|[-> ->]]; [|reflexivity].
  unfold like. cbn [bind option_map]. f_equal. unfold response_unnamed. cbn [rs_version rs_signon rs_slots]. rewrite !SignonResponse_inv, E, Es. reflexivity.
Qed.

Theorem response_like e1 e2 s : same_currencies e1 e2 ->
  option_map response_unnamed (decode_response e1 s) = option_map response_unnamed (decode_response e2 s).
Proof.
  intros He. unfold decode_response. destruct (read_document s) as [[v n]|]; [|reflexivity]. cbn [bind fst snd]. apply (ofx_like e1 e2 v n He).
Qed.

(** ** Validity *)

Lemma date_empty_unnamed t : date_empty (unnamed t) = date_empty t.
Proof. reflexivity. Qed.

Lemma option_map_through {A B} (f : A -> B) (of : B -> A) (g : B -> B) (h : A -> A) o : (forall x, of (g (f x)) = h x) ->
  option_map of (option_map g (option_map f o)) = option_map h o.
Proof. intros H. destruct o; cbn; [rewrite H|]; reflexivity. Qed.

Lemma map_through {A B} (f : A -> B) (of : B -> A) (g : B -> B) (h : A -> A) l : (forall x, of (g (f x)) = h x) ->
  map of (map g (map f l)) = map h l.
Proof. intros H. rewrite !map_map. apply map_ext, H. Qed.

Lemma option_map_same {A} (f : A -> A) o : (forall x, f x = x) -> option_map f o = o.
Proof. intros H. destruct o; cbn; [rewrite H|]; reflexivity. Qed.

Lemma all_valid_map {A} (f : A -> validity) (g : A -> A) l : (forall x, f (g x) = f x) -> all_valid f (map g l) = all_valid f l.
Proof. intros H. induction l as [|x l IH]; [reflexivity|]. cbn [map all_valid]. rewrite H, IH. reflexivity. Qed.

Lemma status_same x : Status_of (no_names Status_ty (Status_to x)) = x.
Proof. destruct x; reflexivity. Qed.
Lemma bank_acct_same x : BankAcct_of (no_names BankAcct_ty (BankAcct_to x)) = x.
Proof. destruct x; reflexivity. Qed.
Lemma cc_acct_same x : CCAcct_of (no_names CCAcct_ty (CCAcct_to x)) = x.
Proof. destruct x; reflexivity. Qed.
Lemma payee_same x : Payee_of (no_names Payee_ty (Payee_to x)) = x.
Proof. destruct x; reflexivity. Qed.
Lemma currency_same x : Currency_of (no_names Currency_ty (Currency_to x)) = x.
Proof. destruct x; reflexivity. Qed.

Definition transaction_unnamed (t : Transaction) : Transaction := Transaction_of (no_names Transaction_ty (Transaction_to t)).
Definition transactions_unnamed (t : TransactionList) : TransactionList := TransactionList_of (no_names TransactionList_ty (TransactionList_to t)).
Definition pending_unnamed (t : PendingTransaction) : PendingTransaction := PendingTransaction_of (no_names PendingTransaction_ty (PendingTransaction_to t)).
Definition pendings_unnamed (t : PendingTransactionList) : PendingTransactionList :=
  PendingTransactionList_of (no_names PendingTransactionList_ty (PendingTransactionList_to t)).
Definition balance_unnamed (t : Balance) : Balance := Balance_of (no_names Balance_ty (Balance_to t)).

Lemma transaction_valid_unnamed t v : transaction_valid (transaction_unnamed t) v = transaction_valid t v.
Proof.
  unfold transaction_valid.
  change (Transaction_TrnType (transaction_unnamed t)) with (Transaction_TrnType t).
  change (Transaction_DtPosted (transaction_unnamed t)) with (unnamed (Transaction_DtPosted t)).
  change (Transaction_FiTID (transaction_unnamed t)) with (Transaction_FiTID t).
  change (Transaction_CorrectFiTID (transaction_unnamed t)) with (Transaction_CorrectFiTID t).
  change (Transaction_CorrectAction (transaction_unnamed t)) with (Transaction_CorrectAction t).
  change (Transaction_Name (transaction_unnamed t)) with (Transaction_Name t).
  change (Transaction_Payee (transaction_unnamed t)) with (option_map Payee_of (option_map (no_names Payee_ty) (option_map Payee_to (Transaction_Payee t)))).
  change (Transaction_BankAcctTo (transaction_unnamed t)) with (option_map BankAcct_of (option_map (no_names BankAcct_ty) (option_map BankAcct_to (Transaction_BankAcctTo t)))).
  change (Transaction_CCAcctTo (transaction_unnamed t)) with (option_map CCAcct_of (option_map (no_names CCAcct_ty) (option_map CCAcct_to (Transaction_CCAcctTo t)))).
  change (Transaction_Currency (transaction_unnamed t)) with (option_map Currency_of (option_map (no_names Currency_ty) (option_map Currency_to (Transaction_Currency t)))).
  change (Transaction_OrigCurrency (transaction_unnamed t)) with (option_map Currency_of (option_map (no_names Currency_ty) (option_map Currency_to (Transaction_OrigCurrency t)))).
  change (Transaction_ImageData (transaction_unnamed t)) with (map ImageData_of (map (no_names ImageData_ty) (map ImageData_to (Transaction_ImageData t)))).
  rewrite !map_length, date_empty_unnamed.
  rewrite !(option_map_through _ _ _ (fun x => x)), !option_map_same;
    intros; rewrite ?payee_same, ?bank_acct_same, ?cc_acct_same, ?currency_same; reflexivity.
Qed.

Lemma transactions_valid_unnamed l v : transaction_list_valid (transactions_unnamed l) v = transaction_list_valid l v.
Proof.
  unfold transaction_list_valid.
  change (TransactionList_DtStart (transactions_unnamed l)) with (unnamed (TransactionList_DtStart l)).
  change (TransactionList_DtEnd (transactions_unnamed l)) with (unnamed (TransactionList_DtEnd l)).
  change (TransactionList_Transactions (transactions_unnamed l)) with
    (map Transaction_of (map (no_names Transaction_ty) (map Transaction_to (TransactionList_Transactions l)))).
  rewrite !date_empty_unnamed, (map_through _ _ _ transaction_unnamed), all_valid_map; [reflexivity| |reflexivity].
  intros x. apply transaction_valid_unnamed.
Qed.

Lemma pending_valid_unnamed t : pending_transaction_valid (pending_unnamed t) = pending_transaction_valid t.
Proof.
  unfold pending_transaction_valid.
  change (PendingTransaction_TrnType (pending_unnamed t)) with (PendingTransaction_TrnType t).
  change (PendingTransaction_DtTran (pending_unnamed t)) with (unnamed (PendingTransaction_DtTran t)).
  change (PendingTransaction_Name (pending_unnamed t)) with (PendingTransaction_Name t).
  change (PendingTransaction_Currency (pending_unnamed t)) with (Currency_of (no_names Currency_ty (Currency_to (PendingTransaction_Currency t)))).
  change (PendingTransaction_OrigCurrency (pending_unnamed t)) with (Currency_of (no_names Currency_ty (Currency_to (PendingTransaction_OrigCurrency t)))).
  rewrite !currency_same, date_empty_unnamed. reflexivity.
Qed.

Lemma pendings_valid_unnamed l : pending_transaction_list_valid (pendings_unnamed l) = pending_transaction_list_valid l.
Proof.
  unfold pending_transaction_list_valid.
  change (PendingTransactionList_DtAsOf (pendings_unnamed l)) with (unnamed (PendingTransactionList_DtAsOf l)).
  change (PendingTransactionList_Transactions (pendings_unnamed l)) with
    (map PendingTransaction_of (map (no_names PendingTransaction_ty) (map PendingTransaction_to (PendingTransactionList_Transactions l)))).
  rewrite !date_empty_unnamed, (map_through _ _ _ pending_unnamed), all_valid_map; [reflexivity| |reflexivity].
  intros x. apply pending_valid_unnamed.
Qed.

Lemma balance_valid_unnamed b : balance_valid (balance_unnamed b) = balance_valid b.
Proof. destruct b; reflexivity. Qed.

Lemma statement_valid_unnamed r v :
  statement_response_valid (StatementResponse_of (no_names StatementResponse_ty (StatementResponse_to r))) v = statement_response_valid r v.
Proof.
  unfold statement_response_valid. set (u := StatementResponse_of _).
  change (StatementResponse_TrnUID u) with (StatementResponse_TrnUID r).
  change (StatementResponse_Status u) with (Status_of (no_names Status_ty (Status_to (StatementResponse_Status r)))).
  change (StatementResponse_CurDef u) with (StatementResponse_CurDef r).
  change (StatementResponse_BankAcctFrom u) with (BankAcct_of (no_names BankAcct_ty (BankAcct_to (StatementResponse_BankAcctFrom r)))).
  change (StatementResponse_DtAsOf u) with (unnamed (StatementResponse_DtAsOf r)).
  change (StatementResponse_AvailBalAmt u) with (option_map (fun x : Q => x) (StatementResponse_AvailBalAmt r)).
  change (StatementResponse_AvailDtAsOf u) with (option_map unnamed (StatementResponse_AvailDtAsOf r)).
  change (StatementResponse_BankTranList u) with (option_map TransactionList_of (option_map (no_names TransactionList_ty) (option_map TransactionList_to (StatementResponse_BankTranList r)))).
  change (StatementResponse_BankTranListP u) with
    (option_map PendingTransactionList_of (option_map (no_names PendingTransactionList_ty) (option_map PendingTransactionList_to (StatementResponse_BankTranListP r)))).
  change (StatementResponse_BalList u) with (map Balance_of (map (no_names Balance_ty) (map Balance_to (StatementResponse_BalList r)))).
  clearbody u. rewrite status_same, bank_acct_same, date_empty_unnamed.
  rewrite (option_map_through _ _ _ transactions_unnamed), (option_map_through _ _ _ pendings_unnamed), (map_through _ _ _ balance_unnamed) by reflexivity.
  rewrite all_valid_map by apply balance_valid_unnamed.
  assert (E : forall A B (f : A -> B) o, is_some (option_map f o) = is_some o) by (intros A B f [|]; reflexivity). rewrite !E.
  destruct (StatementResponse_BankTranList r) as [tl|], (StatementResponse_BankTranListP r) as [pl|];
    cbn [option_map if_present]; rewrite ?transactions_valid_unnamed, ?pendings_valid_unnamed; reflexivity.
Qed.

Lemma message_valid_unnamed m v : snd (message_valid (message_unnamed m) v) = snd (message_valid m v).
Proof.
  destruct m as [r|r|r|r|r|r|r|r|r|r|r|r|r]; cbn [message_unnamed message_valid snd]; try reflexivity.
  - unfold profile_request_valid. set (u := ProfileRequest_of _).
    change (ProfileRequest_TrnUID u) with (ProfileRequest_TrnUID r). destruct (uid_validity _); reflexivity.
  - apply statement_valid_unnamed.
Qed.

Lemma signon_valid_unnamed r : signon_response_valid (SignonResponse_of (no_names SignonResponse_ty (SignonResponse_to r))) = signon_response_valid r.
Proof.
  unfold signon_response_valid. set (u := SignonResponse_of _).
  change (SignonResponse_Language u) with (SignonResponse_Language r).
  change (SignonResponse_Status u) with (Status_of (no_names Status_ty (Status_to (SignonResponse_Status r)))).
  rewrite status_same. reflexivity.
Qed.

Lemma fold_errs_unnamed v l : forall errs,
  fold_left (fun errs m => add_err errs (plain_err (snd (message_valid m v)))) (map message_unnamed l) errs =
  fold_left (fun errs m => add_err errs (plain_err (snd (message_valid m v)))) l errs.
Proof. induction l as [|m l IH]; intros errs; [reflexivity|]. cbn [map fold_left]. rewrite message_valid_unnamed. apply IH. Qed.

Lemma table_unnamed s : concat (map fst (set_table (slots_unnamed s) Rs)) = map message_unnamed (concat (map fst (set_table s Rs))).
Proof. destruct s. rewrite concat_map. reflexivity. Qed.

Theorem response_valid_unnamed r : response_valid (response_unnamed r) = response_valid r.
Proof.
  unfold response_valid, response_unnamed. cbn [rs_signon rs_version rs_slots]. cbv zeta.
  rewrite signon_valid_unnamed, table_unnamed, fold_errs_unnamed. reflexivity.
Qed.

Theorem parse_like e1 e2 s : same_currencies e1 e2 ->
  option_map response_unnamed (fst (parse_response e1 s)) = option_map response_unnamed (fst (parse_response e2 s)) /\
  snd (parse_response e1 s) = snd (parse_response e2 s).
Proof.
  intros He. unfold parse_response.
  destruct (like_inv _ _ _ (response_like e1 e2 s He)) as [(a & b & -> & -> & E)|[-> ->]]; [|split; reflexivity].
  cbn [fst snd option_map]. rewrite E. split; [reflexivity|]. rewrite <- (response_valid_unnamed a), <- (response_valid_unnamed b), E. reflexivity.
Qed.

(** ** The names of the zones *)

Definition from_clock (l : Z -> str * Z) (t : gotime) : Prop := l (t_ns t / sec_ns)%Z = (t_zone t, t_off t).

Lemma time_parse_names l1 l2 fmt v a b : time_parse l1 fmt v = Some a -> time_parse l2 fmt v = Some b ->
  t_zone a = t_zone b \/ from_clock l1 a \/ from_clock l2 b.
Proof.
  unfold time_parse. destruct (parse_chunks fmt p_init v) as [p|]; [|discriminate]. destruct (_ || _)%bool; [discriminate|].
  cbv zeta. destruct (p_utc p); [intros Ha Hb; left; congruence|]. destruct (p_off p) as [off|]; [|discriminate].
  assert (G : forall t, named l1 p off t = Some a -> named l2 p off t = Some b -> t_zone a = t_zone b \/ from_clock l1 a \/ from_clock l2 b).
  { unfold named. intros t. destruct (l1 _) as [n1 o1] eqn:E1, (l2 _) as [n2 o2] eqn:E2.
    destruct ((o1 =? off)%Z && _)%bool eqn:B1.
    - intros Ha _. right. left. injection Ha as <-. unfold from_clock. cbn. rewrite E1. apply Bool.andb_true_iff in B1 as [B1 _].
      apply Z.eqb_eq in B1. congruence.
    - destruct ((o2 =? off)%Z && _)%bool eqn:B2; [|intros Ha Hb; left; congruence].
      intros _ Hb. right. right. injection Hb as <-. unfold from_clock. cbn. rewrite E2. apply Bool.andb_true_iff in B2 as [B2 _].
      apply Z.eqb_eq in B2. congruence. }
  apply G.
Qed.

Lemma try_formats_names l1 l2 fmts zf v a b : try_formats l1 fmts zf v = Some a -> try_formats l2 fmts zf v = Some b ->
  t_zone a = t_zone b \/ from_clock l1 a \/ from_clock l2 b.
Proof.
  induction fmts as [|f fmts IH]; [discriminate|]. cbn [try_formats].
  destruct (time_parse l1 (f ++ zf) v) as [x|] eqn:E1, (time_parse l2 (f ++ zf) v) as [y|] eqn:E2.
  - intros Ha Hb. injection Ha as <-. injection Hb as <-. exact (time_parse_names _ _ _ _ _ _ E1 E2).
  - pose proof (time_parse_like l1 l2 (f ++ zf) v) as H. rewrite E1, E2 in H. discriminate H.
  - pose proof (time_parse_like l1 l2 (f ++ zf) v) as H. rewrite E1, E2 in H. discriminate H.
  - exact IH.
Qed.

Theorem date_names e1 e2 s a : date_unmarshal e1 s = Some a -> exists b, date_unmarshal e2 s = Some b /\
  t_ns a = t_ns b /\ t_off a = t_off b /\ (t_zone a = t_zone b \/ from_clock (env_local e1) a \/ from_clock (env_local e2) b).
Proof.
  intros Ha. pose proof (date_like e1 e2 s) as H. apply like_inv in H as [(a' & b & E1 & E2 & E)|[E1 _]]; [|congruence].
  rewrite Ha in E1. injection E1 as <-. exists b. split; [exact E2|]. unfold unnamed in E. injection E as En Eo.
  split; [exact En|]. split; [exact Eo|]. revert Ha E2. unfold date_unmarshal. cbv zeta.
  destruct (split2 (bs "[") _) as [[v z]|]; [|apply try_formats_names].
  destruct (date_zone z) as [[zone zfmt]|]; [apply try_formats_names|discriminate].
Qed.
