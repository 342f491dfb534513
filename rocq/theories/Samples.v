(** Concrete values for the examples beside the theorems. *)
From Coq Require Import QArith Lia ZifyBool ZifyNat ZifyN.
From Coq Require Import List.
From Verif Require Import GoStr GoStrFacts GoTime GoNumFacts Types Enums EnumTables Records Messages Codec SpecStr SpecNum SpecDate
  SpecCodec Schema Document SpecDocument SpecLists DateFacts CodecFacts.
Close Scope Q_scope.
Import ListNotations.

(** A process that runs in GMT and knows every currency. *)
Definition sample_env : env := mkEnv (fun _ => (bs "GMT", 0%Z)) (fun _ => true).

Definition sample_civil : civil := mkCivil 2024 2 29 13 45 59 250.
Definition sample_date : gotime := mkTime (instant sample_civil 0) 0 (bs "GMT").
Definition sample_secid : SecurityID := mkSecurityID (bs "78462F103") (bs "CUSIP").
Definition sample_secinfo : SecInfo :=
  mkSecInfo sample_secid (bs "S&P <500>") (bs "SPY") [] [] (50123 # 100) (Some sample_date) None (bs "a memo").
Definition sample_securities : SecurityList :=
  mkSecurityList
    [ Security_StockInfo (mkStockInfo sample_secinfo 3 (3 # 2) None 5 []);
      Security_OtherInfo (mkOtherInfo sample_secinfo (bs "other") 0 []);
      Security_StockInfo (mkStockInfo sample_secinfo 0 0 (Some sample_date) 0 (bs "x")) ].
Definition no_currency : Currency := mkCurrency 0 (bs "XXX").
Definition sample_tran : InvTran := mkInvTran (bs "23321") [] sample_date None [] (bs "dividend").
Definition sample_income : Income :=
  mkIncome sample_tran sample_secid 2 (-(71 # 4)) 1 1 false 0 no_currency no_currency 0.
Definition sample_journal : JrnlFund := mkJrnlFund sample_tran (1 # 2) 1 2.
Definition sample_transactions : InvTranList :=
  mkInvTranList sample_date sample_date
    [InvTransaction_JrnlFund sample_journal; InvTransaction_Income sample_income; InvTransaction_JrnlFund sample_journal]
    [mkInvBankTransaction [] 1].
Definition sample_position : InvPosition :=
  mkInvPosition sample_secid 1 1 100 (3 # 4) 75 0 sample_date None [] 0.
Definition sample_positions : list Position :=
  [ Position_StockPosition (mkStockPosition sample_position 0 0 true);
    Position_DebtPosition (mkDebtPosition sample_position) ].
Definition sample_oo : OO := mkOO (bs "1") [] sample_secid sample_date 1 1 1 1 0 0 0 [] None 0.
Definition sample_orders : list OpenOrder :=
  [ OpenOrder_OOSellDebt (mkOOSellDebt sample_oo); OpenOrder_OOBuyStock (mkOOBuyStock sample_oo 1);
    OpenOrder_OOSellDebt (mkOOSellDebt sample_oo) ].
Definition sample_sets : list MessageSet :=
  [ mkMessageSet (bs "BANKMSGSETV1") 1 (bs "https://example.com/?a=1&b=2") 1 true (bs "realm") [bs "ENG"; bs "FRA"] 1 false true [];
    mkMessageSet (bs "SIGNONMSGSETV1") 1 (bs "https://example.com") 0 true [] [] 0 false false [] ].

Lemma sample_date_ok : date_ok sample_env sample_date.
Proof.
  exists sample_civil, 0%Z, (bs "GMT"). split; [reflexivity|].
  split; [unfold civil_ok; cbn; repeat split; discriminate|].
  split; [exists 0%Z; reflexivity|]. split; [split; reflexivity|]. split; [intros [_ H]; discriminate|].
  left. split; [apply upper_letters_forallb; reflexivity|]. right. left. split; [reflexivity | discriminate].
Qed.

(** A computable test for [representable], for values with the sample date. *)
Definition time_eqb (a b : gotime) : bool :=
  (t_ns a =? t_ns b)%Z && (t_off a =? t_off b)%Z && str_eqb (t_zone a) (t_zone b).

Definition leaf_okb (l : leafty) : leafval l -> bool :=
  match l return leafval l -> bool with
  | LInt => fun v => ((- 2 ^ 63 <=? v) && (v <? 2 ^ 63))%Z
  | LString | LUID => fun v => str_eqb (trim_space v) v
  | LAmount => fun q => (Qnum (Qred q) =? Qnum q)%Z && (QDen (Qred q) =? QDen q)%Z && ((10 ^ 100) mod QDen q =? 0)%Z
  | LDate => fun t => time_eqb t sample_date
  | LBool => fun _ => true
  | LCurr => fun c => Nat.eqb (length c) 3 && forallb is_upper c
  | LEnum t => fun v => N.eqb v 0 || ((1 <=? v) && (v <=? N.of_nat (length (en_names t))))%N
  end.

Fixpoint everyb (P : forall l, leafval l -> bool) (t : ty) : interp t -> bool :=
  match t return interp t -> bool with
  | TLeaf l => P l
  | TStruct _ fs => everyb_field P fs
  | TPtr t => fun v => match v with None => true | Some v => everyb P t v end
  | TSlice t => forallb (everyb P t)
  | TCustom _ fs => everyb_field P fs
  | TAlts a => forallb (everyb_alt P a)
  | TAltList _ a => forallb (everyb_alt P a)
  | TMsgSets fs => forallb (fun m => everyb_field P fs (snd m))
  end
with everyb_field (P : forall l, leafval l -> bool) (fs : flds) : interp_flds fs -> bool :=
  match fs return interp_flds fs -> bool with
  | FNil => fun _ => true
  | FCons _ _ _ t fs' => fun v => everyb P t (fst v) && everyb_field P fs' (snd v)
  end
with everyb_alt (P : forall l, leafval l -> bool) (a : alts) : interp_alts a -> bool :=
  match a return interp_alts a -> bool with
  | ANil => fun _ => true
  | ACons _ _ t a' => fun v =>
      match v with inl x => everyb P t x | inr y => everyb_alt P a' y end
  end.

Lemma leaf_okb_ok l v : leaf_okb l v = true -> leaf_ok sample_env l v.
Proof.
  destruct l; cbn [leaf_okb leaf_ok]; intros H.
  - unfold int64_range. lia.
  - apply str_eqb_eq in H. pose proof (trim_space_sound v) as T. rewrite H in T.
    destruct T as (? & ? & _ & _ & _ & T). exact T.
  - apply andb_true_iff in H as [H H3]. apply andb_true_iff in H as [H1 H2]. split.
    + destruct (Qred v) as [a b], v as [c d]. cbn [Qnum Qden] in *. f_equal; [lia|]. lia.
    + apply Z.eqb_eq in H3. apply Z.mod_divide in H3; [|discriminate]. destruct H3 as [k Hk].
      exists (Qnum v * k)%Z. rewrite Hk. destruct v as [c d]. cbn [Qnum Qden] in *.
      assert (Hk0 : (k <> 0)%Z) by (intros ->; discriminate).
      rewrite Qmake_Qdiv, !inject_Z_mult. field.
      split; intros E; [|apply Hk0]; unfold Qeq, inject_Z in E; cbn [Qnum Qden] in E; lia.
  - unfold time_eqb in H. apply andb_true_iff in H as [H12 H3]. apply andb_true_iff in H12 as [H1 H2].
    apply str_eqb_eq in H3. assert (E : v = sample_date).
    { destruct v as [a b c]. cbn [t_ns t_off t_zone] in *. apply Z.eqb_eq in H1, H2. rewrite H1, H2, H3. reflexivity. }
    rewrite E. apply sample_date_ok.
  - exact I.
  - apply str_eqb_eq in H. pose proof (trim_space_sound v) as T. rewrite H in T.
    destruct T as (? & ? & _ & _ & _ & T). exact T.
  - apply andb_true_iff in H as [H1 H2]. split; [apply Nat.eqb_eq; exact H1|].
    split; [apply upper_letters_forallb; exact H2 | reflexivity].
  - lia.
Qed.

Lemma forallb_Forall {A} (p : A -> bool) (P : A -> Prop) l :
  (forall x, p x = true -> P x) -> forallb p l = true -> Forall P l.
Proof. intros H Hb. rewrite forallb_forall in Hb. apply Forall_forall. auto. Qed.

Lemma everyb_every (p : forall l, leafval l -> bool) (P : forall l, leafval l -> Prop) :
  (forall l v, p l v = true -> P l v) ->
  (forall t v, everyb p t v = true -> every P t v) /\
  (forall fs v, everyb_field p fs v = true -> every_field P fs v) /\
  (forall a v, everyb_alt p a v = true -> every_alt P a v).
Proof.
  intros Hp. apply schema_ind.
  - exact Hp.
  - intros x fs IH v H. exact (IH v H).
  - intros t IH [v|] H; [exact (IH v H) | exact I].
  - intros t IH v H. exact (forallb_Forall _ _ _ IH H).
  - intros x fs IH v H. exact (IH v H).
  - intros a IH v H. exact (forallb_Forall _ _ _ IH H).
  - intros x a IH v H. exact (forallb_Forall _ _ _ IH H).
  - intros fs IH v H. exact (forallb_Forall _ (fun m => every_field P fs (snd m)) _ (fun m => IH (snd m)) H).
  - intros v _. exact I.
  - intros ps nm om t IHt fs IHf v H. cbn [everyb_field every_field] in *. apply andb_true_iff in H as [H1 H2].
    split; [exact (IHt _ H1) | exact (IHf _ H2)].
  - intros v _. exact I.
  - intros rd wr t IHt a IHa v H. destruct v as [x|y]; [exact (IHt x H) | exact (IHa y H)].
Qed.

Lemma sample_representable t v : everyb leaf_okb t v = true -> representable sample_env t v.
Proof. apply (everyb_every _ _ leaf_okb_ok). Qed.

Definition sample_status : Status := mkStatus 0 (bs "INFO") [].
Definition sample_acct : BankAcct := mkBankAcct (bs "318398732") [] (bs "78346129") 1 [].
Definition sample_signon_request : SignonRequest :=
  mkSignonRequest sample_date (bs "myusername") (bs "Pa$$word<>&") [] false [] (bs "BNK") (bs "1987")
    (bs "OFXGO") (bs "0001") [].
Definition sample_profile_request (uid : str) : ProfileRequest :=
  mkProfileRequest uid [] [] (bs "MSGSET") sample_date.
Definition sample_request : Request :=
  mkRequest (bs "https://example.com/ofx") OfxVersion203 sample_signon_request
    (mkSlots [] [MsgStatementRequest (mkStatementRequest (bs "123") [] [] sample_acct (Some sample_date) None true false false)]
       [] [] [] [] [] [] [] [] [] []
       [MsgProfileRequest (sample_profile_request (bs "456")); MsgProfileRequest (sample_profile_request (bs "789"))] [])
    true false.

Definition sample_signon_response : SignonResponse :=
  mkSignonResponse sample_status sample_date [] None (bs "ENG") (Some sample_date) None (bs "BNK") (bs "1987") [] [].
Definition sample_payment : Transaction :=
  mkTransaction 2 sample_date None None (-(1001 # 100)) (bs "000001") [] 0 [] (bs "12") [] 0 [] (bs "Grocer & Son") None []
    None None (bs "milk; ""bread""") [] None None 0.
Definition sample_statement : StatementResponse :=
  mkStatementResponse (bs "1001") sample_status [] (bs "USD") sample_acct
    (Some (mkTransactionList sample_date sample_date [sample_payment; sample_payment])) None
    (1001 # 50) sample_date (Some (3 # 4)%Q) (Some sample_date) None None [] [].
Definition sample_profile : ProfileResponse :=
  mkProfileResponse (bs "1002") sample_status [] sample_sets [] sample_date (bs "First Bank") [] [] [] [] [] [] (bs "USA")
    [] [] [] (bs "https://example.com") [].
Definition sample_investment : InvStatementResponse :=
  mkInvStatementResponse (bs "1003") sample_status [] sample_date (bs "USD") (mkInvAcct (bs "broker") (bs "1234"))
    (Some sample_transactions) sample_positions None sample_orders [] None None.
Definition sample_response : Response :=
  mkResponse OfxVersion103 sample_signon_response
    (mkSlots [] [MsgStatementResponse sample_statement; MsgStatementResponse sample_statement] [] []
       [MsgInvStatementResponse sample_investment] [] [] [] []
       [MsgSecListResponse (mkSecListResponse (bs "1004") sample_status []); MsgSecurityList sample_securities] [] []
       [MsgProfileResponse sample_profile] []).

Lemma sample_response_representable : response_representable sample_env sample_response.
Proof.
  split; [apply sample_representable; vm_compute; reflexivity|].
  assert (H : forall m, In m (flat_map snd (response_sets (rs_slots sample_response))) -> message_representable sample_env m).
  { intros m Hm. cbn [response_sets rs_slots sample_response flat_map snd app sl_signup sl_bank sl_creditcard sl_loan
      sl_invstmt sl_interxfer sl_wirexfer sl_billpay sl_email sl_seclist sl_presdir sl_presdlv sl_prof sl_image] in Hm.
    repeat destruct Hm as [<-|Hm]; [ .. | destruct Hm]; cbn [message_representable];
    try (apply sample_representable; vm_compute; reflexivity).
    split; [apply sample_representable; vm_compute; reflexivity|]. intros k E. discriminate E. }
  intros set ms m Hs Hm. apply H. apply in_flat_map. exists (set, ms). auto.
Qed.

(** The sample response with details of a loan. *)
Definition sample_loan : LoanInfo :=
  mkLoanInfo (bs "1") [] 100 None 50 None 0 0 0 0 0 None 0 0 None.
Definition sample_401k : Inv401K :=
  mkInv401K (bs "employer") [] None [] [] 0 0 0 0 0 None 0 0 [] 0 [] [sample_loan]
    (mkInv401KSummaryPeriod sample_date sample_date None None None) None None.
Definition sample_loan_response : Response :=
  mkResponse OfxVersion203 sample_signon_response
    (mkSlots [] [] [] []
       [MsgInvStatementResponse (mkInvStatementResponse (bs "1003") sample_status [] sample_date (bs "USD")
          (mkInvAcct (bs "broker") (bs "1234")) None [] None [] [] (Some sample_401k) None)]
       [] [] [] [] [] [] [] [] []).
