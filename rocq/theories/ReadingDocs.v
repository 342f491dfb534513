(** The fields of every struct are read as SpecReading lists it. *)
From Coq Require Import String QArith.
From Verif Require Import GoStr GoStrFacts GoTime Types Enums EnumTables Records Messages Codec CodecFacts Schema SchemaInv
  Document SpecDocument DocumentFacts SpecReading ReadingFacts ReadingLists.
Close Scope Q_scope.
Open Scope list_scope.

Ltac open_fields :=
  cbv zeta; cbn [fields_run fst snd zero_flds]; unfold field_run; cbn [strip_prefix hits];
  change (concat (kids_of (bs ?nm) ?kids)) with (inner nm kids).

Lemma skip_name (nm rd rd' : str) (P Q : Prop) : rd <> rd' -> (Q <-> nm = rd' /\ P) -> (nm <> rd /\ Q <-> nm = rd' /\ P).
Proof. intros H E. rewrite E. split; [tauto | intros [-> HP]; repeat split; [intros ->; apply H; reflexivity | exact HP]]. Qed.

Lemma alt_next rd wr t a nm k y rd' P : rd <> rd' -> (match_alts a nm k = Some y <-> nm = rd' /\ P) ->
  (match_alts (ACons rd wr t a) nm k = Some (inr y) <-> nm = rd' /\ P).
Proof. intros H E. rewrite alt_there. apply skip_name; assumption. Qed.

Lemma alt_first {A} e x fs wr a (to : A -> interp_flds fs) R nm rd k v : reads_struct e fs to R -> fits x rd = true ->
  match_alts (ACons rd wr (TStruct x fs) a) nm (d_value (decode e (Elem nm k))) = Some (inl (to v)) <-> nm = rd /\ R k v.
Proof. intros H Hx. rewrite alt_here. exact (alt_struct e x fs to R nm rd k v H Hx). Qed.

Lemma Status_read e : reads_struct e Status_fields Status_to (Status_says e).
Proof.
  intros kids r. rewrite struct_iff by (vm_compute; reflexivity). unfold Status_fields, Status_to, Status_says. open_fields.
  apply and_cong; [apply read_number|].
  apply and_cong; [apply read_text|].
  apply and_last. apply read_text.
Qed.

Lemma BankAcct_read e : reads_struct e BankAcct_fields BankAcct_to (BankAcct_says e).
Proof.
  intros kids r. rewrite struct_iff by (vm_compute; reflexivity). unfold BankAcct_fields, BankAcct_to, BankAcct_says. open_fields.
  apply and_cong; [apply read_text|].
  apply and_cong; [apply read_text|].
  apply and_cong; [apply read_text|].
  apply and_cong; [apply read_choice|].
  apply and_last. apply read_text.
Qed.

Lemma CCAcct_read e : reads_struct e CCAcct_fields CCAcct_to (CCAcct_says e).
Proof.
  intros kids r. rewrite struct_iff by (vm_compute; reflexivity). unfold CCAcct_fields, CCAcct_to, CCAcct_says. open_fields.
  apply and_cong; [apply read_text|].
  apply and_last. apply read_text.
Qed.

Lemma InvAcct_read e : reads_struct e InvAcct_fields InvAcct_to (InvAcct_says e).
Proof.
  intros kids r. rewrite struct_iff by (vm_compute; reflexivity). unfold InvAcct_fields, InvAcct_to, InvAcct_says. open_fields.
  apply and_cong; [apply read_text|].
  apply and_last. apply read_text.
Qed.

Lemma Currency_read e : reads_struct e Currency_fields Currency_to (Currency_says e).
Proof.
  intros kids r. rewrite struct_iff by (vm_compute; reflexivity). unfold Currency_fields, Currency_to, Currency_says. open_fields.
  apply and_cong; [apply read_amount|].
  apply and_last. apply read_currency.
Qed.

Lemma SecurityID_read e : reads_struct e SecurityID_fields SecurityID_to (SecurityID_says e).
Proof.
  intros kids r. rewrite struct_iff by (vm_compute; reflexivity). unfold SecurityID_fields, SecurityID_to, SecurityID_says. open_fields.
  apply and_cong; [apply read_text|].
  apply and_last. apply read_text.
Qed.

Lemma SecurityRequest_read e : reads_struct e SecurityRequest_fields SecurityRequest_to (SecurityRequest_says e).
Proof.
  intros kids r. rewrite struct_iff by (vm_compute; reflexivity). unfold SecurityRequest_fields, SecurityRequest_to, SecurityRequest_says. open_fields.
  apply and_cong; [apply (read_opt_part e _ _ _ _ _ _ _ (SecurityID_read e)); reflexivity|].
  apply and_cong; [apply read_text|].
  apply and_last. apply read_text.
Qed.

Lemma SecListRequest_read e : reads_struct e SecListRequest_fields SecListRequest_to (SecListRequest_says e).
Proof.
  intros kids r. rewrite struct_iff by (vm_compute; reflexivity). unfold SecListRequest_fields, SecListRequest_to, SecListRequest_says. open_fields.
  apply and_cong; [apply read_uid|].
  apply and_cong; [apply read_text|].
  apply and_cong; [apply read_text|].
  apply and_last. apply (read_parts e _ _ _ _ _ _ _ (SecurityRequest_read e)); reflexivity.
Qed.

Lemma SecListResponse_read e : reads_struct e SecListResponse_fields SecListResponse_to (SecListResponse_says e).
Proof.
  intros kids r. rewrite struct_iff by (vm_compute; reflexivity). unfold SecListResponse_fields, SecListResponse_to, SecListResponse_says. open_fields.
  apply and_cong; [apply read_uid|].
  apply and_cong; [apply (read_part e _ _ _ _ _ _ _ (Status_read e)); reflexivity|].
  apply and_last. apply read_text.
Qed.

Lemma SecInfo_read e : reads_struct e SecInfo_fields SecInfo_to (SecInfo_says e).
Proof.
  intros kids r. rewrite struct_iff by (vm_compute; reflexivity). unfold SecInfo_fields, SecInfo_to, SecInfo_says. open_fields.
  apply and_cong; [apply (read_part e _ _ _ _ _ _ _ (SecurityID_read e)); reflexivity|].
  apply and_cong; [apply read_text|].
  apply and_cong; [apply read_text|].
  apply and_cong; [apply read_text|].
  apply and_cong; [apply read_text|].
  apply and_cong; [apply read_amount|].
  apply and_cong; [apply read_opt_date|].
  apply and_cong; [apply (read_opt_part e _ _ _ _ _ _ _ (Currency_read e)); reflexivity|].
  apply and_last. apply read_text.
Qed.

Lemma DebtInfo_read e : reads_struct e DebtInfo_fields DebtInfo_to (DebtInfo_says e).
Proof.
  intros kids r. rewrite struct_iff by (vm_compute; reflexivity). unfold DebtInfo_fields, DebtInfo_to, DebtInfo_says. open_fields.
  apply and_cong; [apply (read_part e _ _ _ _ _ _ _ (SecInfo_read e)); reflexivity|].
  apply and_cong; [apply read_amount|].
  apply and_cong; [apply read_choice|].
  apply and_cong; [apply read_choice|].
  apply and_cong; [apply read_amount|].
  apply and_cong; [apply read_opt_date|].
  apply and_cong; [apply read_choice|].
  apply and_cong; [apply read_amount|].
  apply and_cong; [apply read_amount|].
  apply and_cong; [apply read_opt_date|].
  apply and_cong; [apply read_choice|].
  apply and_cong; [apply read_amount|].
  apply and_cong; [apply read_opt_date|].
  apply and_cong; [apply read_choice|].
  apply and_last. apply read_text.
Qed.

Lemma AssetPortion_read e : reads_struct e AssetPortion_fields AssetPortion_to (AssetPortion_says e).
Proof.
  intros kids r. rewrite struct_iff by (vm_compute; reflexivity). unfold AssetPortion_fields, AssetPortion_to, AssetPortion_says. open_fields.
  apply and_cong; [apply read_choice|].
  apply and_last. apply read_amount.
Qed.

Lemma FiAssetPortion_read e : reads_struct e FiAssetPortion_fields FiAssetPortion_to (FiAssetPortion_says e).
Proof.
  intros kids r. rewrite struct_iff by (vm_compute; reflexivity). unfold FiAssetPortion_fields, FiAssetPortion_to, FiAssetPortion_says. open_fields.
  apply and_cong; [apply read_text|].
  apply and_last. apply read_amount.
Qed.

Lemma MFInfo_read e : reads_struct e MFInfo_fields MFInfo_to (MFInfo_says e).
Proof.
  intros kids r. rewrite struct_iff by (vm_compute; reflexivity). unfold MFInfo_fields, MFInfo_to, MFInfo_says. open_fields.
  apply and_cong; [apply (read_part e _ _ _ _ _ _ _ (SecInfo_read e)); reflexivity|].
  apply and_cong; [apply read_choice|].
  apply and_cong; [apply read_amount|].
  apply and_cong; [apply read_opt_date|].
  apply and_cong; [apply (read_parts e _ _ _ _ _ _ _ (AssetPortion_read e)); reflexivity|].
  apply and_last. apply (read_parts e _ _ _ _ _ _ _ (FiAssetPortion_read e)); reflexivity.
Qed.

Lemma OptInfo_read e : reads_struct e OptInfo_fields OptInfo_to (OptInfo_says e).
Proof.
  intros kids r. rewrite struct_iff by (vm_compute; reflexivity). unfold OptInfo_fields, OptInfo_to, OptInfo_says. open_fields.
  apply and_cong; [apply (read_part e _ _ _ _ _ _ _ (SecInfo_read e)); reflexivity|].
  apply and_cong; [apply read_choice|].
  apply and_cong; [apply read_amount|].
  apply and_cong; [apply read_date|].
  apply and_cong; [apply read_number|].
  apply and_cong; [apply (read_opt_part e _ _ _ _ _ _ _ (SecurityID_read e)); reflexivity|].
  apply and_cong; [apply read_choice|].
  apply and_last. apply read_text.
Qed.

Lemma OtherInfo_read e : reads_struct e OtherInfo_fields OtherInfo_to (OtherInfo_says e).
Proof.
  intros kids r. rewrite struct_iff by (vm_compute; reflexivity). unfold OtherInfo_fields, OtherInfo_to, OtherInfo_says. open_fields.
  apply and_cong; [apply (read_part e _ _ _ _ _ _ _ (SecInfo_read e)); reflexivity|].
  apply and_cong; [apply read_text|].
  apply and_cong; [apply read_choice|].
  apply and_last. apply read_text.
Qed.

Lemma StockInfo_read e : reads_struct e StockInfo_fields StockInfo_to (StockInfo_says e).
Proof.
  intros kids r. rewrite struct_iff by (vm_compute; reflexivity). unfold StockInfo_fields, StockInfo_to, StockInfo_says. open_fields.
  apply and_cong; [apply (read_part e _ _ _ _ _ _ _ (SecInfo_read e)); reflexivity|].
  apply and_cong; [apply read_choice|].
  apply and_cong; [apply read_amount|].
  apply and_cong; [apply read_opt_date|].
  apply and_cong; [apply read_choice|].
  apply and_last. apply read_text.
Qed.

Lemma Security_read e : reads_alt e Security_alts Security_to (Security_says e).
Proof.
  intros nm k r. unfold Security_alts, Security_to, Security_says. destruct r as [x|x|x|x|x].
  - exact (alt_first e (bs "DEBTINFO") DebtInfo_fields _ _ DebtInfo_to (DebtInfo_says e) nm (bs "DEBTINFO") k x (DebtInfo_read e) eq_refl).
  - apply alt_next; [discriminate|]. exact (alt_first e (bs "MFINFO") MFInfo_fields _ _ MFInfo_to (MFInfo_says e) nm (bs "MFINFO") k x (MFInfo_read e) eq_refl).
  - apply alt_next; [discriminate|]. apply alt_next; [discriminate|]. exact (alt_first e (bs "OPTINFO") OptInfo_fields _ _ OptInfo_to (OptInfo_says e) nm (bs "OPTINFO") k x (OptInfo_read e) eq_refl).
  - apply alt_next; [discriminate|]. apply alt_next; [discriminate|]. apply alt_next; [discriminate|]. exact (alt_first e (bs "OTHERINFO") OtherInfo_fields _ _ OtherInfo_to (OtherInfo_says e) nm (bs "OTHERINFO") k x (OtherInfo_read e) eq_refl).
  - apply alt_next; [discriminate|]. apply alt_next; [discriminate|]. apply alt_next; [discriminate|]. apply alt_next; [discriminate|]. exact (alt_first e (bs "STOCKINFO") StockInfo_fields _ _ StockInfo_to (StockInfo_says e) nm (bs "STOCKINFO") k x (StockInfo_read e) eq_refl).
Qed.

Lemma SecurityList_read e kids r : steps e (cust_step e SecurityList_fields) kids (zero_flds SecurityList_fields) = Some (SecurityList_to r) <-> SecurityList_says e kids r.
Proof. exact (read_only_alts e Security_alts Security_to (Security_says e) (Security_read e) kids (SecurityList_Securities r)). Qed.

Lemma SignonRequest_read e : reads_struct e SignonRequest_fields SignonRequest_to (SignonRequest_says e).
Proof.
  intros kids r. rewrite struct_iff by (vm_compute; reflexivity). unfold SignonRequest_fields, SignonRequest_to, SignonRequest_says. open_fields.
  apply and_cong; [apply read_date|].
  apply and_cong; [apply read_text|].
  apply and_cong; [apply read_text|].
  apply and_cong; [apply read_text|].
  apply and_cong; [apply read_flag|].
  apply and_cong; [apply read_text|].
  apply and_cong; [apply read_text|].
  apply and_cong; [apply read_text|].
  apply and_cong; [apply read_text|].
  apply and_cong; [apply read_text|].
  apply and_last. apply read_uid.
Qed.

Lemma SignonResponse_read e : reads_struct e SignonResponse_fields SignonResponse_to (SignonResponse_says e).
Proof.
  intros kids r. rewrite struct_iff by (vm_compute; reflexivity). unfold SignonResponse_fields, SignonResponse_to, SignonResponse_says. open_fields.
  apply and_cong; [apply (read_part e _ _ _ _ _ _ _ (Status_read e)); reflexivity|].
  apply and_cong; [apply read_date|].
  apply and_cong; [apply read_text|].
  apply and_cong; [apply read_opt_date|].
  apply and_cong; [apply read_text|].
  apply and_cong; [apply read_opt_date|].
  apply and_cong; [apply read_opt_date|].
  apply and_cong; [apply read_text|].
  apply and_cong; [apply read_text|].
  apply and_cong; [apply read_text|].
  apply and_last. apply read_text.
Qed.

Lemma AcctInfoRequest_read e : reads_struct e AcctInfoRequest_fields AcctInfoRequest_to (AcctInfoRequest_says e).
Proof.
  intros kids r. rewrite struct_iff by (vm_compute; reflexivity). unfold AcctInfoRequest_fields, AcctInfoRequest_to, AcctInfoRequest_says. open_fields.
  apply and_cong; [apply read_uid|].
  apply and_cong; [apply read_text|].
  apply and_cong; [apply read_text|].
  apply and_last. apply read_date.
Qed.

Lemma HolderInfo_read e : reads_struct e HolderInfo_fields HolderInfo_to (HolderInfo_says e).
Proof.
  intros kids r. rewrite struct_iff by (vm_compute; reflexivity). unfold HolderInfo_fields, HolderInfo_to, HolderInfo_says. open_fields.
  apply and_cong; [apply read_text|].
  apply and_cong; [apply read_text|].
  apply and_cong; [apply read_text|].
  apply and_cong; [apply read_text|].
  apply and_cong; [apply read_text|].
  apply and_cong; [apply read_text|].
  apply and_cong; [apply read_text|].
  apply and_cong; [apply read_text|].
  apply and_cong; [apply read_text|].
  apply and_cong; [apply read_text|].
  apply and_cong; [apply read_text|].
  apply and_cong; [apply read_text|].
  apply and_cong; [apply read_text|].
  apply and_last. apply read_choice.
Qed.

Lemma BankAcctInfo_read e : reads_struct e BankAcctInfo_fields BankAcctInfo_to (BankAcctInfo_says e).
Proof.
  intros kids r. rewrite struct_iff by (vm_compute; reflexivity). unfold BankAcctInfo_fields, BankAcctInfo_to, BankAcctInfo_says. open_fields.
  apply and_cong; [apply (read_part e _ _ _ _ _ _ _ (BankAcct_read e)); reflexivity|].
  apply and_cong; [apply read_flag|].
  apply and_cong; [apply read_flag|].
  apply and_cong; [apply read_flag|].
  apply and_cong; [apply read_date|].
  apply and_cong; [apply read_amount|].
  apply and_cong; [apply read_amount|].
  apply and_cong; [apply read_choice|].
  apply and_cong; [apply read_amount|].
  apply and_last. apply read_choice.
Qed.

Lemma CCAcctInfo_read e : reads_struct e CCAcctInfo_fields CCAcctInfo_to (CCAcctInfo_says e).
Proof.
  intros kids r. rewrite struct_iff by (vm_compute; reflexivity). unfold CCAcctInfo_fields, CCAcctInfo_to, CCAcctInfo_says. open_fields.
  apply and_cong; [apply (read_part e _ _ _ _ _ _ _ (CCAcct_read e)); reflexivity|].
  apply and_cong; [apply read_flag|].
  apply and_cong; [apply read_flag|].
  apply and_cong; [apply read_flag|].
  apply and_cong; [apply read_choice|].
  apply and_last. apply read_choice.
Qed.

Lemma InvAcctInfo_read e : reads_struct e InvAcctInfo_fields InvAcctInfo_to (InvAcctInfo_says e).
Proof.
  intros kids r. rewrite struct_iff by (vm_compute; reflexivity). unfold InvAcctInfo_fields, InvAcctInfo_to, InvAcctInfo_says. open_fields.
  apply and_cong; [apply (read_part e _ _ _ _ _ _ _ (InvAcct_read e)); reflexivity|].
  apply and_cong; [apply read_choice|].
  apply and_cong; [apply read_flag|].
  apply and_cong; [apply read_choice|].
  apply and_cong; [apply read_choice|].
  apply and_last. apply read_text.
Qed.

Lemma AcctInfo_read e : reads_struct e AcctInfo_fields AcctInfo_to (AcctInfo_says e).
Proof.
  intros kids r. rewrite struct_iff by (vm_compute; reflexivity). unfold AcctInfo_fields, AcctInfo_to, AcctInfo_says. open_fields.
  apply and_cong; [apply read_text|].
  apply and_cong; [apply read_text|].
  apply and_cong; [apply read_text|].
  apply and_cong; [apply (read_part e _ _ _ _ _ _ _ (HolderInfo_read e)); reflexivity|].
  apply and_cong; [apply (read_part e _ _ _ _ _ _ _ (HolderInfo_read e)); reflexivity|].
  apply and_cong; [apply (read_opt_part e _ _ _ _ _ _ _ (BankAcctInfo_read e)); reflexivity|].
  apply and_cong; [apply (read_opt_part e _ _ _ _ _ _ _ (CCAcctInfo_read e)); reflexivity|].
  apply and_last. apply (read_opt_part e _ _ _ _ _ _ _ (InvAcctInfo_read e)); reflexivity.
Qed.

Lemma AcctInfoResponse_read e : reads_struct e AcctInfoResponse_fields AcctInfoResponse_to (AcctInfoResponse_says e).
Proof.
  intros kids r. rewrite struct_iff by (vm_compute; reflexivity). unfold AcctInfoResponse_fields, AcctInfoResponse_to, AcctInfoResponse_says. open_fields.
  apply and_cong; [apply read_uid|].
  apply and_cong; [apply (read_part e _ _ _ _ _ _ _ (Status_read e)); reflexivity|].
  apply and_cong; [apply read_text|].
  apply and_cong; [apply read_date|].
  apply and_last. apply (read_parts e _ _ _ _ _ _ _ (AcctInfo_read e)); reflexivity.
Qed.

Lemma StatementRequest_read e : reads_struct e StatementRequest_fields StatementRequest_to (StatementRequest_says e).
Proof.
  intros kids r. rewrite struct_iff by (vm_compute; reflexivity). unfold StatementRequest_fields, StatementRequest_to, StatementRequest_says. open_fields.
  apply and_cong; [apply read_uid|].
  apply and_cong; [apply read_text|].
  apply and_cong; [apply read_text|].
  apply and_cong; [apply (read_part e _ _ _ _ _ _ _ (BankAcct_read e)); reflexivity|].
  apply and_cong; [apply read_opt_date|].
  apply and_cong; [apply read_opt_date|].
  apply and_cong; [apply read_flag|].
  apply and_cong; [apply read_flag|].
  apply and_last. apply read_flag.
Qed.

Lemma Payee_read e : reads_struct e Payee_fields Payee_to (Payee_says e).
Proof.
  intros kids r. rewrite struct_iff by (vm_compute; reflexivity). unfold Payee_fields, Payee_to, Payee_says. open_fields.
  apply and_cong; [apply read_text|].
  apply and_cong; [apply read_text|].
  apply and_cong; [apply read_text|].
  apply and_cong; [apply read_text|].
  apply and_cong; [apply read_text|].
  apply and_cong; [apply read_text|].
  apply and_cong; [apply read_text|].
  apply and_cong; [apply read_text|].
  apply and_last. apply read_text.
Qed.

Lemma ImageData_read e : reads_struct e ImageData_fields ImageData_to (ImageData_says e).
Proof.
  intros kids r. rewrite struct_iff by (vm_compute; reflexivity). unfold ImageData_fields, ImageData_to, ImageData_says. open_fields.
  apply and_cong; [apply read_choice|].
  apply and_cong; [apply read_text|].
  apply and_cong; [apply read_choice|].
  apply and_cong; [apply read_number|].
  apply and_cong; [apply read_opt_date|].
  apply and_cong; [apply read_number|].
  apply and_last. apply read_choice.
Qed.

Lemma Transaction_read e : reads_struct e Transaction_fields Transaction_to (Transaction_says e).
Proof.
  intros kids r. rewrite struct_iff by (vm_compute; reflexivity). unfold Transaction_fields, Transaction_to, Transaction_says. open_fields.
  apply and_cong; [apply read_choice|].
  apply and_cong; [apply read_date|].
  apply and_cong; [apply read_opt_date|].
  apply and_cong; [apply read_opt_date|].
  apply and_cong; [apply read_amount|].
  apply and_cong; [apply read_text|].
  apply and_cong; [apply read_text|].
  apply and_cong; [apply read_choice|].
  apply and_cong; [apply read_text|].
  apply and_cong; [apply read_text|].
  apply and_cong; [apply read_text|].
  apply and_cong; [apply read_number|].
  apply and_cong; [apply read_text|].
  apply and_cong; [apply read_text|].
  apply and_cong; [apply (read_opt_part e _ _ _ _ _ _ _ (Payee_read e)); reflexivity|].
  apply and_cong; [apply read_text|].
  apply and_cong; [apply (read_opt_part e _ _ _ _ _ _ _ (BankAcct_read e)); reflexivity|].
  apply and_cong; [apply (read_opt_part e _ _ _ _ _ _ _ (CCAcct_read e)); reflexivity|].
  apply and_cong; [apply read_text|].
  apply and_cong; [apply (read_parts e _ _ _ _ _ _ _ (ImageData_read e)); reflexivity|].
  apply and_cong; [apply (read_opt_part e _ _ _ _ _ _ _ (Currency_read e)); reflexivity|].
  apply and_cong; [apply (read_opt_part e _ _ _ _ _ _ _ (Currency_read e)); reflexivity|].
  apply and_last. apply read_choice.
Qed.

Lemma TransactionList_read e : reads_struct e TransactionList_fields TransactionList_to (TransactionList_says e).
Proof.
  intros kids r. rewrite struct_iff by (vm_compute; reflexivity). unfold TransactionList_fields, TransactionList_to, TransactionList_says. open_fields.
  apply and_cong; [apply read_date|].
  apply and_cong; [apply read_date|].
  apply and_last. apply (read_parts e _ _ _ _ _ _ _ (Transaction_read e)); reflexivity.
Qed.

Lemma PendingTransaction_read e : reads_struct e PendingTransaction_fields PendingTransaction_to (PendingTransaction_says e).
Proof.
  intros kids r. rewrite struct_iff by (vm_compute; reflexivity). unfold PendingTransaction_fields, PendingTransaction_to, PendingTransaction_says. open_fields.
  apply and_cong; [apply read_choice|].
  apply and_cong; [apply read_date|].
  apply and_cong; [apply read_opt_date|].
  apply and_cong; [apply read_amount|].
  apply and_cong; [apply read_text|].
  apply and_cong; [apply read_text|].
  apply and_cong; [apply read_text|].
  apply and_cong; [apply read_text|].
  apply and_cong; [apply (read_parts e _ _ _ _ _ _ _ (ImageData_read e)); reflexivity|].
  apply and_cong; [apply (read_part e _ _ _ _ _ _ _ (Currency_read e)); reflexivity|].
  apply and_last. apply (read_part e _ _ _ _ _ _ _ (Currency_read e)); reflexivity.
Qed.

Lemma PendingTransactionList_read e : reads_struct e PendingTransactionList_fields PendingTransactionList_to (PendingTransactionList_says e).
Proof.
  intros kids r. rewrite struct_iff by (vm_compute; reflexivity). unfold PendingTransactionList_fields, PendingTransactionList_to, PendingTransactionList_says. open_fields.
  apply and_cong; [apply read_date|].
  apply and_last. apply (read_parts e _ _ _ _ _ _ _ (PendingTransaction_read e)); reflexivity.
Qed.

Lemma Balance_read e : reads_struct e Balance_fields Balance_to (Balance_says e).
Proof.
  intros kids r. rewrite struct_iff by (vm_compute; reflexivity). unfold Balance_fields, Balance_to, Balance_says. open_fields.
  apply and_cong; [apply read_text|].
  apply and_cong; [apply read_text|].
  apply and_cong; [apply read_choice|].
  apply and_cong; [apply read_amount|].
  apply and_cong; [apply read_opt_date|].
  apply and_last. apply (read_opt_part e _ _ _ _ _ _ _ (Currency_read e)); reflexivity.
Qed.

Lemma StatementResponse_read e : reads_struct e StatementResponse_fields StatementResponse_to (StatementResponse_says e).
Proof.
  intros kids r. rewrite struct_iff by (vm_compute; reflexivity). unfold StatementResponse_fields, StatementResponse_to, StatementResponse_says. open_fields.
  apply and_cong; [apply read_uid|].
  apply and_cong; [apply (read_part e _ _ _ _ _ _ _ (Status_read e)); reflexivity|].
  apply and_cong; [apply read_text|].
  apply and_cong; [apply read_currency|].
  apply and_cong; [apply (read_part e _ _ _ _ _ _ _ (BankAcct_read e)); reflexivity|].
  apply and_cong; [apply (read_opt_part e _ _ _ _ _ _ _ (TransactionList_read e)); reflexivity|].
  apply and_cong; [apply (read_opt_part e _ _ _ _ _ _ _ (PendingTransactionList_read e)); reflexivity|].
  apply and_cong; [apply read_amount|].
  apply and_cong; [apply read_date|].
  apply and_cong; [apply read_opt_amount|].
  apply and_cong; [apply read_opt_date|].
  apply and_cong; [apply read_opt_amount|].
  apply and_cong; [apply read_opt_amount|].
  apply and_cong; [apply (read_parts e _ _ _ _ _ _ _ (Balance_read e)); reflexivity|].
  apply and_last. apply read_text.
Qed.

Lemma CCStatementRequest_read e : reads_struct e CCStatementRequest_fields CCStatementRequest_to (CCStatementRequest_says e).
Proof.
  intros kids r. rewrite struct_iff by (vm_compute; reflexivity). unfold CCStatementRequest_fields, CCStatementRequest_to, CCStatementRequest_says. open_fields.
  apply and_cong; [apply read_uid|].
  apply and_cong; [apply read_text|].
  apply and_cong; [apply read_text|].
  apply and_cong; [apply (read_part e _ _ _ _ _ _ _ (CCAcct_read e)); reflexivity|].
  apply and_cong; [apply read_opt_date|].
  apply and_cong; [apply read_opt_date|].
  apply and_cong; [apply read_flag|].
  apply and_cong; [apply read_flag|].
  apply and_last. apply read_flag.
Qed.

Lemma CCStatementResponse_read e : reads_struct e CCStatementResponse_fields CCStatementResponse_to (CCStatementResponse_says e).
Proof.
  intros kids r. rewrite struct_iff by (vm_compute; reflexivity). unfold CCStatementResponse_fields, CCStatementResponse_to, CCStatementResponse_says. open_fields.
  apply and_cong; [apply read_uid|].
  apply and_cong; [apply (read_part e _ _ _ _ _ _ _ (Status_read e)); reflexivity|].
  apply and_cong; [apply read_text|].
  apply and_cong; [apply read_currency|].
  apply and_cong; [apply (read_part e _ _ _ _ _ _ _ (CCAcct_read e)); reflexivity|].
  apply and_cong; [apply (read_opt_part e _ _ _ _ _ _ _ (TransactionList_read e)); reflexivity|].
  apply and_cong; [apply read_amount|].
  apply and_cong; [apply read_date|].
  apply and_cong; [apply read_opt_amount|].
  apply and_cong; [apply read_opt_date|].
  apply and_cong; [apply read_amount|].
  apply and_cong; [apply read_amount|].
  apply and_cong; [apply read_amount|].
  apply and_cong; [apply read_amount|].
  apply and_cong; [apply read_text|].
  apply and_cong; [apply read_amount|].
  apply and_cong; [apply read_amount|].
  apply and_cong; [apply (read_parts e _ _ _ _ _ _ _ (Balance_read e)); reflexivity|].
  apply and_last. apply read_text.
Qed.

Lemma InvStatementRequest_read e : reads_struct e InvStatementRequest_fields InvStatementRequest_to (InvStatementRequest_says e).
Proof.
  intros kids r. rewrite struct_iff by (vm_compute; reflexivity). unfold InvStatementRequest_fields, InvStatementRequest_to, InvStatementRequest_says. open_fields.
  apply and_cong; [apply read_uid|].
  apply and_cong; [apply read_text|].
  apply and_cong; [apply read_text|].
  apply and_cong; [apply (read_part e _ _ _ _ _ _ _ (InvAcct_read e)); reflexivity|].
  apply and_cong; [apply read_opt_date|].
  apply and_cong; [apply read_opt_date|].
  apply and_cong; [apply read_flag|].
  apply and_cong; [apply read_flag|].
  apply and_cong; [apply read_opt_date|].
  apply and_cong; [apply read_flag|].
  apply and_cong; [apply read_flag|].
  apply and_cong; [apply read_flag|].
  apply and_cong; [apply read_flag|].
  apply and_last. apply read_flag.
Qed.

Lemma InvTran_read e : reads_struct e InvTran_fields InvTran_to (InvTran_says e).
Proof.
  intros kids r. rewrite struct_iff by (vm_compute; reflexivity). unfold InvTran_fields, InvTran_to, InvTran_says. open_fields.
  apply and_cong; [apply read_text|].
  apply and_cong; [apply read_text|].
  apply and_cong; [apply read_date|].
  apply and_cong; [apply read_opt_date|].
  apply and_cong; [apply read_text|].
  apply and_last. apply read_text.
Qed.

Lemma InvBuy_read e : reads_struct e InvBuy_fields InvBuy_to (InvBuy_says e).
Proof.
  intros kids r. rewrite struct_iff by (vm_compute; reflexivity). unfold InvBuy_fields, InvBuy_to, InvBuy_says. open_fields.
  apply and_cong; [apply (read_part e _ _ _ _ _ _ _ (InvTran_read e)); reflexivity|].
  apply and_cong; [apply (read_part e _ _ _ _ _ _ _ (SecurityID_read e)); reflexivity|].
  apply and_cong; [apply read_amount|].
  apply and_cong; [apply read_amount|].
  apply and_cong; [apply read_amount|].
  apply and_cong; [apply read_amount|].
  apply and_cong; [apply read_amount|].
  apply and_cong; [apply read_amount|].
  apply and_cong; [apply read_amount|].
  apply and_cong; [apply read_amount|].
  apply and_cong; [apply (read_part e _ _ _ _ _ _ _ (Currency_read e)); reflexivity|].
  apply and_cong; [apply (read_part e _ _ _ _ _ _ _ (Currency_read e)); reflexivity|].
  apply and_cong; [apply read_choice|].
  apply and_cong; [apply read_choice|].
  apply and_cong; [apply read_text|].
  apply and_cong; [apply read_amount|].
  apply and_cong; [apply read_amount|].
  apply and_cong; [apply read_choice|].
  apply and_cong; [apply read_opt_date|].
  apply and_last. apply read_flag.
Qed.

Lemma InvSell_read e : reads_struct e InvSell_fields InvSell_to (InvSell_says e).
Proof.
  intros kids r. rewrite struct_iff by (vm_compute; reflexivity). unfold InvSell_fields, InvSell_to, InvSell_says. open_fields.
  apply and_cong; [apply (read_part e _ _ _ _ _ _ _ (InvTran_read e)); reflexivity|].
  apply and_cong; [apply (read_part e _ _ _ _ _ _ _ (SecurityID_read e)); reflexivity|].
  apply and_cong; [apply read_amount|].
  apply and_cong; [apply read_amount|].
  apply and_cong; [apply read_amount|].
  apply and_cong; [apply read_amount|].
  apply and_cong; [apply read_amount|].
  apply and_cong; [apply read_amount|].
  apply and_cong; [apply read_amount|].
  apply and_cong; [apply read_amount|].
  apply and_cong; [apply read_flag|].
  apply and_cong; [apply read_amount|].
  apply and_cong; [apply read_amount|].
  apply and_cong; [apply (read_part e _ _ _ _ _ _ _ (Currency_read e)); reflexivity|].
  apply and_cong; [apply (read_part e _ _ _ _ _ _ _ (Currency_read e)); reflexivity|].
  apply and_cong; [apply read_choice|].
  apply and_cong; [apply read_choice|].
  apply and_cong; [apply read_text|].
  apply and_cong; [apply read_amount|].
  apply and_cong; [apply read_amount|].
  apply and_last. apply read_choice.
Qed.

Lemma BuyDebt_read e : reads_struct e BuyDebt_fields BuyDebt_to (BuyDebt_says e).
Proof.
  intros kids r. rewrite struct_iff by (vm_compute; reflexivity). unfold BuyDebt_fields, BuyDebt_to, BuyDebt_says. open_fields.
  apply and_cong; [apply (read_part e _ _ _ _ _ _ _ (InvBuy_read e)); reflexivity|].
  apply and_last. apply read_amount.
Qed.

Lemma BuyMF_read e : reads_struct e BuyMF_fields BuyMF_to (BuyMF_says e).
Proof.
  intros kids r. rewrite struct_iff by (vm_compute; reflexivity). unfold BuyMF_fields, BuyMF_to, BuyMF_says. open_fields.
  apply and_cong; [apply (read_part e _ _ _ _ _ _ _ (InvBuy_read e)); reflexivity|].
  apply and_cong; [apply read_choice|].
  apply and_last. apply read_text.
Qed.

Lemma BuyOpt_read e : reads_struct e BuyOpt_fields BuyOpt_to (BuyOpt_says e).
Proof.
  intros kids r. rewrite struct_iff by (vm_compute; reflexivity). unfold BuyOpt_fields, BuyOpt_to, BuyOpt_says. open_fields.
  apply and_cong; [apply (read_part e _ _ _ _ _ _ _ (InvBuy_read e)); reflexivity|].
  apply and_cong; [apply read_choice|].
  apply and_last. apply read_number.
Qed.

Lemma BuyOther_read e : reads_struct e BuyOther_fields BuyOther_to (BuyOther_says e).
Proof.
  intros kids r. rewrite struct_iff by (vm_compute; reflexivity). unfold BuyOther_fields, BuyOther_to, BuyOther_says. open_fields.
  apply and_last. apply (read_part e _ _ _ _ _ _ _ (InvBuy_read e)); reflexivity.
Qed.

Lemma BuyStock_read e : reads_struct e BuyStock_fields BuyStock_to (BuyStock_says e).
Proof.
  intros kids r. rewrite struct_iff by (vm_compute; reflexivity). unfold BuyStock_fields, BuyStock_to, BuyStock_says. open_fields.
  apply and_cong; [apply (read_part e _ _ _ _ _ _ _ (InvBuy_read e)); reflexivity|].
  apply and_last. apply read_choice.
Qed.

Lemma ClosureOpt_read e : reads_struct e ClosureOpt_fields ClosureOpt_to (ClosureOpt_says e).
Proof.
  intros kids r. rewrite struct_iff by (vm_compute; reflexivity). unfold ClosureOpt_fields, ClosureOpt_to, ClosureOpt_says. open_fields.
  apply and_cong; [apply (read_part e _ _ _ _ _ _ _ (InvTran_read e)); reflexivity|].
  apply and_cong; [apply (read_part e _ _ _ _ _ _ _ (SecurityID_read e)); reflexivity|].
  apply and_cong; [apply read_choice|].
  apply and_cong; [apply read_amount|].
  apply and_cong; [apply read_number|].
  apply and_cong; [apply read_choice|].
  apply and_cong; [apply read_text|].
  apply and_last. apply read_amount.
Qed.

Lemma Income_read e : reads_struct e Income_fields Income_to (Income_says e).
Proof.
  intros kids r. rewrite struct_iff by (vm_compute; reflexivity). unfold Income_fields, Income_to, Income_says. open_fields.
  apply and_cong; [apply (read_part e _ _ _ _ _ _ _ (InvTran_read e)); reflexivity|].
  apply and_cong; [apply (read_part e _ _ _ _ _ _ _ (SecurityID_read e)); reflexivity|].
  apply and_cong; [apply read_choice|].
  apply and_cong; [apply read_amount|].
  apply and_cong; [apply read_choice|].
  apply and_cong; [apply read_choice|].
  apply and_cong; [apply read_flag|].
  apply and_cong; [apply read_amount|].
  apply and_cong; [apply (read_part e _ _ _ _ _ _ _ (Currency_read e)); reflexivity|].
  apply and_cong; [apply (read_part e _ _ _ _ _ _ _ (Currency_read e)); reflexivity|].
  apply and_last. apply read_choice.
Qed.

Lemma InvExpense_read e : reads_struct e InvExpense_fields InvExpense_to (InvExpense_says e).
Proof.
  intros kids r. rewrite struct_iff by (vm_compute; reflexivity). unfold InvExpense_fields, InvExpense_to, InvExpense_says. open_fields.
  apply and_cong; [apply (read_part e _ _ _ _ _ _ _ (InvTran_read e)); reflexivity|].
  apply and_cong; [apply (read_part e _ _ _ _ _ _ _ (SecurityID_read e)); reflexivity|].
  apply and_cong; [apply read_amount|].
  apply and_cong; [apply read_choice|].
  apply and_cong; [apply read_choice|].
  apply and_cong; [apply (read_part e _ _ _ _ _ _ _ (Currency_read e)); reflexivity|].
  apply and_cong; [apply (read_part e _ _ _ _ _ _ _ (Currency_read e)); reflexivity|].
  apply and_last. apply read_choice.
Qed.

Lemma JrnlFund_read e : reads_struct e JrnlFund_fields JrnlFund_to (JrnlFund_says e).
Proof.
  intros kids r. rewrite struct_iff by (vm_compute; reflexivity). unfold JrnlFund_fields, JrnlFund_to, JrnlFund_says. open_fields.
  apply and_cong; [apply (read_part e _ _ _ _ _ _ _ (InvTran_read e)); reflexivity|].
  apply and_cong; [apply read_amount|].
  apply and_cong; [apply read_choice|].
  apply and_last. apply read_choice.
Qed.

Lemma JrnlSec_read e : reads_struct e JrnlSec_fields JrnlSec_to (JrnlSec_says e).
Proof.
  intros kids r. rewrite struct_iff by (vm_compute; reflexivity). unfold JrnlSec_fields, JrnlSec_to, JrnlSec_says. open_fields.
  apply and_cong; [apply (read_part e _ _ _ _ _ _ _ (InvTran_read e)); reflexivity|].
  apply and_cong; [apply (read_part e _ _ _ _ _ _ _ (SecurityID_read e)); reflexivity|].
  apply and_cong; [apply read_choice|].
  apply and_cong; [apply read_choice|].
  apply and_last. apply read_amount.
Qed.

Lemma MarginInterest_read e : reads_struct e MarginInterest_fields MarginInterest_to (MarginInterest_says e).
Proof.
  intros kids r. rewrite struct_iff by (vm_compute; reflexivity). unfold MarginInterest_fields, MarginInterest_to, MarginInterest_says. open_fields.
  apply and_cong; [apply (read_part e _ _ _ _ _ _ _ (InvTran_read e)); reflexivity|].
  apply and_cong; [apply read_amount|].
  apply and_cong; [apply read_choice|].
  apply and_cong; [apply (read_part e _ _ _ _ _ _ _ (Currency_read e)); reflexivity|].
  apply and_last. apply (read_part e _ _ _ _ _ _ _ (Currency_read e)); reflexivity.
Qed.

Lemma Reinvest_read e : reads_struct e Reinvest_fields Reinvest_to (Reinvest_says e).
Proof.
  intros kids r. rewrite struct_iff by (vm_compute; reflexivity). unfold Reinvest_fields, Reinvest_to, Reinvest_says. open_fields.
  apply and_cong; [apply (read_part e _ _ _ _ _ _ _ (InvTran_read e)); reflexivity|].
  apply and_cong; [apply (read_part e _ _ _ _ _ _ _ (SecurityID_read e)); reflexivity|].
  apply and_cong; [apply read_choice|].
  apply and_cong; [apply read_amount|].
  apply and_cong; [apply read_choice|].
  apply and_cong; [apply read_amount|].
  apply and_cong; [apply read_amount|].
  apply and_cong; [apply read_amount|].
  apply and_cong; [apply read_amount|].
  apply and_cong; [apply read_amount|].
  apply and_cong; [apply read_amount|].
  apply and_cong; [apply read_flag|].
  apply and_cong; [apply (read_part e _ _ _ _ _ _ _ (Currency_read e)); reflexivity|].
  apply and_cong; [apply (read_part e _ _ _ _ _ _ _ (Currency_read e)); reflexivity|].
  apply and_last. apply read_choice.
Qed.

Lemma RetOfCap_read e : reads_struct e RetOfCap_fields RetOfCap_to (RetOfCap_says e).
Proof.
  intros kids r. rewrite struct_iff by (vm_compute; reflexivity). unfold RetOfCap_fields, RetOfCap_to, RetOfCap_says. open_fields.
  apply and_cong; [apply (read_part e _ _ _ _ _ _ _ (InvTran_read e)); reflexivity|].
  apply and_cong; [apply (read_part e _ _ _ _ _ _ _ (SecurityID_read e)); reflexivity|].
  apply and_cong; [apply read_amount|].
  apply and_cong; [apply read_choice|].
  apply and_cong; [apply read_choice|].
  apply and_cong; [apply (read_part e _ _ _ _ _ _ _ (Currency_read e)); reflexivity|].
  apply and_cong; [apply (read_part e _ _ _ _ _ _ _ (Currency_read e)); reflexivity|].
  apply and_last. apply read_choice.
Qed.

Lemma SellDebt_read e : reads_struct e SellDebt_fields SellDebt_to (SellDebt_says e).
Proof.
  intros kids r. rewrite struct_iff by (vm_compute; reflexivity). unfold SellDebt_fields, SellDebt_to, SellDebt_says. open_fields.
  apply and_cong; [apply (read_part e _ _ _ _ _ _ _ (InvSell_read e)); reflexivity|].
  apply and_cong; [apply read_choice|].
  apply and_last. apply read_amount.
Qed.

Lemma SellMF_read e : reads_struct e SellMF_fields SellMF_to (SellMF_says e).
Proof.
  intros kids r. rewrite struct_iff by (vm_compute; reflexivity). unfold SellMF_fields, SellMF_to, SellMF_says. open_fields.
  apply and_cong; [apply (read_part e _ _ _ _ _ _ _ (InvSell_read e)); reflexivity|].
  apply and_cong; [apply read_choice|].
  apply and_cong; [apply read_amount|].
  apply and_last. apply read_text.
Qed.

Lemma SellOpt_read e : reads_struct e SellOpt_fields SellOpt_to (SellOpt_says e).
Proof.
  intros kids r. rewrite struct_iff by (vm_compute; reflexivity). unfold SellOpt_fields, SellOpt_to, SellOpt_says. open_fields.
  apply and_cong; [apply (read_part e _ _ _ _ _ _ _ (InvSell_read e)); reflexivity|].
  apply and_cong; [apply read_choice|].
  apply and_cong; [apply read_number|].
  apply and_cong; [apply read_text|].
  apply and_cong; [apply read_choice|].
  apply and_last. apply read_choice.
Qed.

Lemma SellOther_read e : reads_struct e SellOther_fields SellOther_to (SellOther_says e).
Proof.
  intros kids r. rewrite struct_iff by (vm_compute; reflexivity). unfold SellOther_fields, SellOther_to, SellOther_says. open_fields.
  apply and_last. apply (read_part e _ _ _ _ _ _ _ (InvSell_read e)); reflexivity.
Qed.

Lemma SellStock_read e : reads_struct e SellStock_fields SellStock_to (SellStock_says e).
Proof.
  intros kids r. rewrite struct_iff by (vm_compute; reflexivity). unfold SellStock_fields, SellStock_to, SellStock_says. open_fields.
  apply and_cong; [apply (read_part e _ _ _ _ _ _ _ (InvSell_read e)); reflexivity|].
  apply and_last. apply read_choice.
Qed.

Lemma Split_read e : reads_struct e Split_fields Split_to (Split_says e).
Proof.
  intros kids r. rewrite struct_iff by (vm_compute; reflexivity). unfold Split_fields, Split_to, Split_says. open_fields.
  apply and_cong; [apply (read_part e _ _ _ _ _ _ _ (InvTran_read e)); reflexivity|].
  apply and_cong; [apply (read_part e _ _ _ _ _ _ _ (SecurityID_read e)); reflexivity|].
  apply and_cong; [apply read_choice|].
  apply and_cong; [apply read_amount|].
  apply and_cong; [apply read_amount|].
  apply and_cong; [apply read_number|].
  apply and_cong; [apply read_number|].
  apply and_cong; [apply (read_part e _ _ _ _ _ _ _ (Currency_read e)); reflexivity|].
  apply and_cong; [apply (read_part e _ _ _ _ _ _ _ (Currency_read e)); reflexivity|].
  apply and_cong; [apply read_amount|].
  apply and_cong; [apply read_choice|].
  apply and_last. apply read_choice.
Qed.

Lemma Transfer_read e : reads_struct e Transfer_fields Transfer_to (Transfer_says e).
Proof.
  intros kids r. rewrite struct_iff by (vm_compute; reflexivity). unfold Transfer_fields, Transfer_to, Transfer_says. open_fields.
  apply and_cong; [apply (read_part e _ _ _ _ _ _ _ (InvTran_read e)); reflexivity|].
  apply and_cong; [apply (read_part e _ _ _ _ _ _ _ (SecurityID_read e)); reflexivity|].
  apply and_cong; [apply read_choice|].
  apply and_cong; [apply read_amount|].
  apply and_cong; [apply read_choice|].
  apply and_cong; [apply read_choice|].
  apply and_cong; [apply (read_part e _ _ _ _ _ _ _ (InvAcct_read e)); reflexivity|].
  apply and_cong; [apply read_amount|].
  apply and_cong; [apply read_amount|].
  apply and_cong; [apply read_opt_date|].
  apply and_last. apply read_choice.
Qed.

Lemma InvBankTransaction_read e : reads_struct e InvBankTransaction_fields InvBankTransaction_to (InvBankTransaction_says e).
Proof.
  intros kids r. rewrite struct_iff by (vm_compute; reflexivity). unfold InvBankTransaction_fields, InvBankTransaction_to, InvBankTransaction_says. open_fields.
  apply and_cong; [apply (read_parts e _ _ _ _ _ _ _ (Transaction_read e)); reflexivity|].
  apply and_last. apply read_choice.
Qed.

Lemma InvTransaction_read e : reads_alt e InvTransaction_alts InvTransaction_to (InvTransaction_says e).
Proof.
  intros nm k r. unfold InvTransaction_alts, InvTransaction_to, InvTransaction_says. destruct r as [x|x|x|x|x|x|x|x|x|x|x|x|x|x|x|x|x|x|x|x].
  - exact (alt_first e (bs "BUYDEBT") BuyDebt_fields _ _ BuyDebt_to (BuyDebt_says e) nm (bs "BUYDEBT") k x (BuyDebt_read e) eq_refl).
  - apply alt_next; [discriminate|]. exact (alt_first e (bs "BUYMF") BuyMF_fields _ _ BuyMF_to (BuyMF_says e) nm (bs "BUYMF") k x (BuyMF_read e) eq_refl).
  - apply alt_next; [discriminate|]. apply alt_next; [discriminate|]. exact (alt_first e (bs "BUYOPT") BuyOpt_fields _ _ BuyOpt_to (BuyOpt_says e) nm (bs "BUYOPT") k x (BuyOpt_read e) eq_refl).
  - apply alt_next; [discriminate|]. apply alt_next; [discriminate|]. apply alt_next; [discriminate|]. exact (alt_first e (bs "BUYOTHER") BuyOther_fields _ _ BuyOther_to (BuyOther_says e) nm (bs "BUYOTHER") k x (BuyOther_read e) eq_refl).
  - apply alt_next; [discriminate|]. apply alt_next; [discriminate|]. apply alt_next; [discriminate|]. apply alt_next; [discriminate|]. exact (alt_first e (bs "BUYSTOCK") BuyStock_fields _ _ BuyStock_to (BuyStock_says e) nm (bs "BUYSTOCK") k x (BuyStock_read e) eq_refl).
  - apply alt_next; [discriminate|]. apply alt_next; [discriminate|]. apply alt_next; [discriminate|]. apply alt_next; [discriminate|]. apply alt_next; [discriminate|]. exact (alt_first e (bs "CLOSUREOPT") ClosureOpt_fields _ _ ClosureOpt_to (ClosureOpt_says e) nm (bs "CLOSUREOPT") k x (ClosureOpt_read e) eq_refl).
  - apply alt_next; [discriminate|]. apply alt_next; [discriminate|]. apply alt_next; [discriminate|]. apply alt_next; [discriminate|]. apply alt_next; [discriminate|]. apply alt_next; [discriminate|]. exact (alt_first e (bs "INCOME") Income_fields _ _ Income_to (Income_says e) nm (bs "INCOME") k x (Income_read e) eq_refl).
  - apply alt_next; [discriminate|]. apply alt_next; [discriminate|]. apply alt_next; [discriminate|]. apply alt_next; [discriminate|]. apply alt_next; [discriminate|]. apply alt_next; [discriminate|]. apply alt_next; [discriminate|]. exact (alt_first e (bs "INVEXPENSE") InvExpense_fields _ _ InvExpense_to (InvExpense_says e) nm (bs "INVEXPENSE") k x (InvExpense_read e) eq_refl).
  - apply alt_next; [discriminate|]. apply alt_next; [discriminate|]. apply alt_next; [discriminate|]. apply alt_next; [discriminate|]. apply alt_next; [discriminate|]. apply alt_next; [discriminate|]. apply alt_next; [discriminate|]. apply alt_next; [discriminate|]. exact (alt_first e (bs "JRNLFUND") JrnlFund_fields _ _ JrnlFund_to (JrnlFund_says e) nm (bs "JRNLFUND") k x (JrnlFund_read e) eq_refl).
  - apply alt_next; [discriminate|]. apply alt_next; [discriminate|]. apply alt_next; [discriminate|]. apply alt_next; [discriminate|]. apply alt_next; [discriminate|]. apply alt_next; [discriminate|]. apply alt_next; [discriminate|]. apply alt_next; [discriminate|]. apply alt_next; [discriminate|]. exact (alt_first e (bs "JRNLSEC") JrnlSec_fields _ _ JrnlSec_to (JrnlSec_says e) nm (bs "JRNLSEC") k x (JrnlSec_read e) eq_refl).
  - apply alt_next; [discriminate|]. apply alt_next; [discriminate|]. apply alt_next; [discriminate|]. apply alt_next; [discriminate|]. apply alt_next; [discriminate|]. apply alt_next; [discriminate|]. apply alt_next; [discriminate|]. apply alt_next; [discriminate|]. apply alt_next; [discriminate|]. apply alt_next; [discriminate|]. exact (alt_first e (bs "MARGININTEREST") MarginInterest_fields _ _ MarginInterest_to (MarginInterest_says e) nm (bs "MARGININTEREST") k x (MarginInterest_read e) eq_refl).
  - apply alt_next; [discriminate|]. apply alt_next; [discriminate|]. apply alt_next; [discriminate|]. apply alt_next; [discriminate|]. apply alt_next; [discriminate|]. apply alt_next; [discriminate|]. apply alt_next; [discriminate|]. apply alt_next; [discriminate|]. apply alt_next; [discriminate|]. apply alt_next; [discriminate|]. apply alt_next; [discriminate|]. exact (alt_first e (bs "REINVEST") Reinvest_fields _ _ Reinvest_to (Reinvest_says e) nm (bs "REINVEST") k x (Reinvest_read e) eq_refl).
  - apply alt_next; [discriminate|]. apply alt_next; [discriminate|]. apply alt_next; [discriminate|]. apply alt_next; [discriminate|]. apply alt_next; [discriminate|]. apply alt_next; [discriminate|]. apply alt_next; [discriminate|]. apply alt_next; [discriminate|]. apply alt_next; [discriminate|]. apply alt_next; [discriminate|]. apply alt_next; [discriminate|]. apply alt_next; [discriminate|]. exact (alt_first e (bs "RETOFCAP") RetOfCap_fields _ _ RetOfCap_to (RetOfCap_says e) nm (bs "RETOFCAP") k x (RetOfCap_read e) eq_refl).
  - apply alt_next; [discriminate|]. apply alt_next; [discriminate|]. apply alt_next; [discriminate|]. apply alt_next; [discriminate|]. apply alt_next; [discriminate|]. apply alt_next; [discriminate|]. apply alt_next; [discriminate|]. apply alt_next; [discriminate|]. apply alt_next; [discriminate|]. apply alt_next; [discriminate|]. apply alt_next; [discriminate|]. apply alt_next; [discriminate|]. apply alt_next; [discriminate|]. exact (alt_first e (bs "SELLDEBT") SellDebt_fields _ _ SellDebt_to (SellDebt_says e) nm (bs "SELLDEBT") k x (SellDebt_read e) eq_refl).
  - apply alt_next; [discriminate|]. apply alt_next; [discriminate|]. apply alt_next; [discriminate|]. apply alt_next; [discriminate|]. apply alt_next; [discriminate|]. apply alt_next; [discriminate|]. apply alt_next; [discriminate|]. apply alt_next; [discriminate|]. apply alt_next; [discriminate|]. apply alt_next; [discriminate|]. apply alt_next; [discriminate|]. apply alt_next; [discriminate|]. apply alt_next; [discriminate|]. apply alt_next; [discriminate|]. exact (alt_first e (bs "SELLMF") SellMF_fields _ _ SellMF_to (SellMF_says e) nm (bs "SELLMF") k x (SellMF_read e) eq_refl).
  - apply alt_next; [discriminate|]. apply alt_next; [discriminate|]. apply alt_next; [discriminate|]. apply alt_next; [discriminate|]. apply alt_next; [discriminate|]. apply alt_next; [discriminate|]. apply alt_next; [discriminate|]. apply alt_next; [discriminate|]. apply alt_next; [discriminate|]. apply alt_next; [discriminate|]. apply alt_next; [discriminate|]. apply alt_next; [discriminate|]. apply alt_next; [discriminate|]. apply alt_next; [discriminate|]. apply alt_next; [discriminate|]. exact (alt_first e (bs "SELLOPT") SellOpt_fields _ _ SellOpt_to (SellOpt_says e) nm (bs "SELLOPT") k x (SellOpt_read e) eq_refl).
  - apply alt_next; [discriminate|]. apply alt_next; [discriminate|]. apply alt_next; [discriminate|]. apply alt_next; [discriminate|]. apply alt_next; [discriminate|]. apply alt_next; [discriminate|]. apply alt_next; [discriminate|]. apply alt_next; [discriminate|]. apply alt_next; [discriminate|]. apply alt_next; [discriminate|]. apply alt_next; [discriminate|]. apply alt_next; [discriminate|]. apply alt_next; [discriminate|]. apply alt_next; [discriminate|]. apply alt_next; [discriminate|]. apply alt_next; [discriminate|]. exact (alt_first e (bs "SELLOTHER") SellOther_fields _ _ SellOther_to (SellOther_says e) nm (bs "SELLOTHER") k x (SellOther_read e) eq_refl).
  - apply alt_next; [discriminate|]. apply alt_next; [discriminate|]. apply alt_next; [discriminate|]. apply alt_next; [discriminate|]. apply alt_next; [discriminate|]. apply alt_next; [discriminate|]. apply alt_next; [discriminate|]. apply alt_next; [discriminate|]. apply alt_next; [discriminate|]. apply alt_next; [discriminate|]. apply alt_next; [discriminate|]. apply alt_next; [discriminate|]. apply alt_next; [discriminate|]. apply alt_next; [discriminate|]. apply alt_next; [discriminate|]. apply alt_next; [discriminate|]. apply alt_next; [discriminate|]. exact (alt_first e (bs "SELLSTOCK") SellStock_fields _ _ SellStock_to (SellStock_says e) nm (bs "SELLSTOCK") k x (SellStock_read e) eq_refl).
  - apply alt_next; [discriminate|]. apply alt_next; [discriminate|]. apply alt_next; [discriminate|]. apply alt_next; [discriminate|]. apply alt_next; [discriminate|]. apply alt_next; [discriminate|]. apply alt_next; [discriminate|]. apply alt_next; [discriminate|]. apply alt_next; [discriminate|]. apply alt_next; [discriminate|]. apply alt_next; [discriminate|]. apply alt_next; [discriminate|]. apply alt_next; [discriminate|]. apply alt_next; [discriminate|]. apply alt_next; [discriminate|]. apply alt_next; [discriminate|]. apply alt_next; [discriminate|]. apply alt_next; [discriminate|]. exact (alt_first e (bs "SPLIT") Split_fields _ _ Split_to (Split_says e) nm (bs "SPLIT") k x (Split_read e) eq_refl).
  - apply alt_next; [discriminate|]. apply alt_next; [discriminate|]. apply alt_next; [discriminate|]. apply alt_next; [discriminate|]. apply alt_next; [discriminate|]. apply alt_next; [discriminate|]. apply alt_next; [discriminate|]. apply alt_next; [discriminate|]. apply alt_next; [discriminate|]. apply alt_next; [discriminate|]. apply alt_next; [discriminate|]. apply alt_next; [discriminate|]. apply alt_next; [discriminate|]. apply alt_next; [discriminate|]. apply alt_next; [discriminate|]. apply alt_next; [discriminate|]. apply alt_next; [discriminate|]. apply alt_next; [discriminate|]. apply alt_next; [discriminate|]. exact (alt_first e (bs "TRANSFER") Transfer_fields _ _ Transfer_to (Transfer_says e) nm (bs "TRANSFER") k x (Transfer_read e) eq_refl).
Qed.

Lemma InvTranList_read e kids r : steps e (cust_step e InvTranList_fields) kids (zero_flds InvTranList_fields) = Some (InvTranList_to r) <-> InvTranList_says e kids r.
Proof.
  refine (iff_trans (tran_iff e InvTransaction_alts InvBankTransaction_ty eq_refl kids zero_time zero_time [] [] _ _ _ _) _).
  unfold tran_run, InvTranList_says.
  apply and_cong; [apply read_date|].
  apply and_cong; [apply read_date|].
  apply and_cong; [|apply (read_parts e _ _ _ _ _ _ _ (InvBankTransaction_read e)); reflexivity].
  unfold are_listed. cbn [app]. change (others ["DTSTART"%string; "DTEND"%string; "INVBANKTRAN"%string] kids) with (tran_others kids).
  rewrite <- (Forall2_map_iff (fun n x => exists nm k, n = Elem nm k /\ match_alts InvTransaction_alts nm (d_value (decode e n)) = Some x)
    (fun n v => exists nm k, n = Elem nm k /\ InvTransaction_says e nm k v) InvTransaction_to).
  - split; [intros (vs & F & <-); exact F | intros F; eexists; split; [exact F | reflexivity]].
  - intros n v. split; intros (nm & k & -> & H); exists nm, k; (split; [reflexivity|]); apply InvTransaction_read; exact H.
Qed.

Lemma InvPosition_read e : reads_struct e InvPosition_fields InvPosition_to (InvPosition_says e).
Proof.
  intros kids r. rewrite struct_iff by (vm_compute; reflexivity). unfold InvPosition_fields, InvPosition_to, InvPosition_says. open_fields.
  apply and_cong; [apply (read_part e _ _ _ _ _ _ _ (SecurityID_read e)); reflexivity|].
  apply and_cong; [apply read_choice|].
  apply and_cong; [apply read_choice|].
  apply and_cong; [apply read_amount|].
  apply and_cong; [apply read_amount|].
  apply and_cong; [apply read_amount|].
  apply and_cong; [apply read_amount|].
  apply and_cong; [apply read_date|].
  apply and_cong; [apply (read_opt_part e _ _ _ _ _ _ _ (Currency_read e)); reflexivity|].
  apply and_cong; [apply read_text|].
  apply and_last. apply read_choice.
Qed.

Lemma DebtPosition_read e : reads_struct e DebtPosition_fields DebtPosition_to (DebtPosition_says e).
Proof.
  intros kids r. rewrite struct_iff by (vm_compute; reflexivity). unfold DebtPosition_fields, DebtPosition_to, DebtPosition_says. open_fields.
  apply and_last. apply (read_part e _ _ _ _ _ _ _ (InvPosition_read e)); reflexivity.
Qed.

Lemma MFPosition_read e : reads_struct e MFPosition_fields MFPosition_to (MFPosition_says e).
Proof.
  intros kids r. rewrite struct_iff by (vm_compute; reflexivity). unfold MFPosition_fields, MFPosition_to, MFPosition_says. open_fields.
  apply and_cong; [apply (read_part e _ _ _ _ _ _ _ (InvPosition_read e)); reflexivity|].
  apply and_cong; [apply read_amount|].
  apply and_cong; [apply read_amount|].
  apply and_cong; [apply read_flag|].
  apply and_last. apply read_flag.
Qed.

Lemma OptPosition_read e : reads_struct e OptPosition_fields OptPosition_to (OptPosition_says e).
Proof.
  intros kids r. rewrite struct_iff by (vm_compute; reflexivity). unfold OptPosition_fields, OptPosition_to, OptPosition_says. open_fields.
  apply and_cong; [apply (read_part e _ _ _ _ _ _ _ (InvPosition_read e)); reflexivity|].
  apply and_last. apply read_choice.
Qed.

Lemma OtherPosition_read e : reads_struct e OtherPosition_fields OtherPosition_to (OtherPosition_says e).
Proof.
  intros kids r. rewrite struct_iff by (vm_compute; reflexivity). unfold OtherPosition_fields, OtherPosition_to, OtherPosition_says. open_fields.
  apply and_last. apply (read_part e _ _ _ _ _ _ _ (InvPosition_read e)); reflexivity.
Qed.

Lemma StockPosition_read e : reads_struct e StockPosition_fields StockPosition_to (StockPosition_says e).
Proof.
  intros kids r. rewrite struct_iff by (vm_compute; reflexivity). unfold StockPosition_fields, StockPosition_to, StockPosition_says. open_fields.
  apply and_cong; [apply (read_part e _ _ _ _ _ _ _ (InvPosition_read e)); reflexivity|].
  apply and_cong; [apply read_amount|].
  apply and_cong; [apply read_amount|].
  apply and_last. apply read_flag.
Qed.

Lemma InvBalance_read e : reads_struct e InvBalance_fields InvBalance_to (InvBalance_says e).
Proof.
  intros kids r. rewrite struct_iff by (vm_compute; reflexivity). unfold InvBalance_fields, InvBalance_to, InvBalance_says. open_fields.
  apply and_cong; [apply read_amount|].
  apply and_cong; [apply read_amount|].
  apply and_cong; [apply read_amount|].
  apply and_cong; [apply read_amount|].
  apply and_last. apply (read_parts e _ _ _ _ _ _ _ (Balance_read e)); reflexivity.
Qed.

Lemma OO_read e : reads_struct e OO_fields OO_to (OO_says e).
Proof.
  intros kids r. rewrite struct_iff by (vm_compute; reflexivity). unfold OO_fields, OO_to, OO_says. open_fields.
  apply and_cong; [apply read_text|].
  apply and_cong; [apply read_text|].
  apply and_cong; [apply (read_part e _ _ _ _ _ _ _ (SecurityID_read e)); reflexivity|].
  apply and_cong; [apply read_date|].
  apply and_cong; [apply read_amount|].
  apply and_cong; [apply read_choice|].
  apply and_cong; [apply read_choice|].
  apply and_cong; [apply read_choice|].
  apply and_cong; [apply read_amount|].
  apply and_cong; [apply read_amount|].
  apply and_cong; [apply read_amount|].
  apply and_cong; [apply read_text|].
  apply and_cong; [apply (read_opt_part e _ _ _ _ _ _ _ (Currency_read e)); reflexivity|].
  apply and_last. apply read_choice.
Qed.

Lemma OOBuyDebt_read e : reads_struct e OOBuyDebt_fields OOBuyDebt_to (OOBuyDebt_says e).
Proof.
  intros kids r. rewrite struct_iff by (vm_compute; reflexivity). unfold OOBuyDebt_fields, OOBuyDebt_to, OOBuyDebt_says. open_fields.
  apply and_cong; [apply (read_part e _ _ _ _ _ _ _ (OO_read e)); reflexivity|].
  apply and_cong; [apply read_flag|].
  apply and_last. apply read_opt_date.
Qed.

Lemma OOBuyMF_read e : reads_struct e OOBuyMF_fields OOBuyMF_to (OOBuyMF_says e).
Proof.
  intros kids r. rewrite struct_iff by (vm_compute; reflexivity). unfold OOBuyMF_fields, OOBuyMF_to, OOBuyMF_says. open_fields.
  apply and_cong; [apply (read_part e _ _ _ _ _ _ _ (OO_read e)); reflexivity|].
  apply and_cong; [apply read_choice|].
  apply and_last. apply read_choice.
Qed.

Lemma OOBuyOpt_read e : reads_struct e OOBuyOpt_fields OOBuyOpt_to (OOBuyOpt_says e).
Proof.
  intros kids r. rewrite struct_iff by (vm_compute; reflexivity). unfold OOBuyOpt_fields, OOBuyOpt_to, OOBuyOpt_says. open_fields.
  apply and_cong; [apply (read_part e _ _ _ _ _ _ _ (OO_read e)); reflexivity|].
  apply and_last. apply read_choice.
Qed.

Lemma OOBuyOther_read e : reads_struct e OOBuyOther_fields OOBuyOther_to (OOBuyOther_says e).
Proof.
  intros kids r. rewrite struct_iff by (vm_compute; reflexivity). unfold OOBuyOther_fields, OOBuyOther_to, OOBuyOther_says. open_fields.
  apply and_cong; [apply (read_part e _ _ _ _ _ _ _ (OO_read e)); reflexivity|].
  apply and_last. apply read_choice.
Qed.

Lemma OOBuyStock_read e : reads_struct e OOBuyStock_fields OOBuyStock_to (OOBuyStock_says e).
Proof.
  intros kids r. rewrite struct_iff by (vm_compute; reflexivity). unfold OOBuyStock_fields, OOBuyStock_to, OOBuyStock_says. open_fields.
  apply and_cong; [apply (read_part e _ _ _ _ _ _ _ (OO_read e)); reflexivity|].
  apply and_last. apply read_choice.
Qed.

Lemma OOSellDebt_read e : reads_struct e OOSellDebt_fields OOSellDebt_to (OOSellDebt_says e).
Proof.
  intros kids r. rewrite struct_iff by (vm_compute; reflexivity). unfold OOSellDebt_fields, OOSellDebt_to, OOSellDebt_says. open_fields.
  apply and_last. apply (read_part e _ _ _ _ _ _ _ (OO_read e)); reflexivity.
Qed.

Lemma OOSellMF_read e : reads_struct e OOSellMF_fields OOSellMF_to (OOSellMF_says e).
Proof.
  intros kids r. rewrite struct_iff by (vm_compute; reflexivity). unfold OOSellMF_fields, OOSellMF_to, OOSellMF_says. open_fields.
  apply and_cong; [apply (read_part e _ _ _ _ _ _ _ (OO_read e)); reflexivity|].
  apply and_cong; [apply read_choice|].
  apply and_cong; [apply read_choice|].
  apply and_last. apply read_flag.
Qed.

Lemma OOSellOpt_read e : reads_struct e OOSellOpt_fields OOSellOpt_to (OOSellOpt_says e).
Proof.
  intros kids r. rewrite struct_iff by (vm_compute; reflexivity). unfold OOSellOpt_fields, OOSellOpt_to, OOSellOpt_says. open_fields.
  apply and_cong; [apply (read_part e _ _ _ _ _ _ _ (OO_read e)); reflexivity|].
  apply and_last. apply read_choice.
Qed.

Lemma OOSellOther_read e : reads_struct e OOSellOther_fields OOSellOther_to (OOSellOther_says e).
Proof.
  intros kids r. rewrite struct_iff by (vm_compute; reflexivity). unfold OOSellOther_fields, OOSellOther_to, OOSellOther_says. open_fields.
  apply and_cong; [apply (read_part e _ _ _ _ _ _ _ (OO_read e)); reflexivity|].
  apply and_last. apply read_choice.
Qed.

Lemma OOSellStock_read e : reads_struct e OOSellStock_fields OOSellStock_to (OOSellStock_says e).
Proof.
  intros kids r. rewrite struct_iff by (vm_compute; reflexivity). unfold OOSellStock_fields, OOSellStock_to, OOSellStock_says. open_fields.
  apply and_cong; [apply (read_part e _ _ _ _ _ _ _ (OO_read e)); reflexivity|].
  apply and_last. apply read_choice.
Qed.

Lemma OOSwitchMF_read e : reads_struct e OOSwitchMF_fields OOSwitchMF_to (OOSwitchMF_says e).
Proof.
  intros kids r. rewrite struct_iff by (vm_compute; reflexivity). unfold OOSwitchMF_fields, OOSwitchMF_to, OOSwitchMF_says. open_fields.
  apply and_cong; [apply (read_part e _ _ _ _ _ _ _ (OO_read e)); reflexivity|].
  apply and_cong; [apply (read_part e _ _ _ _ _ _ _ (SecurityID_read e)); reflexivity|].
  apply and_cong; [apply read_choice|].
  apply and_last. apply read_flag.
Qed.

Lemma ContribSecurity_read e : reads_struct e ContribSecurity_fields ContribSecurity_to (ContribSecurity_says e).
Proof.
  intros kids r. rewrite struct_iff by (vm_compute; reflexivity). unfold ContribSecurity_fields, ContribSecurity_to, ContribSecurity_says. open_fields.
  apply and_cong; [apply (read_part e _ _ _ _ _ _ _ (SecurityID_read e)); reflexivity|].
  apply and_cong; [apply read_amount|].
  apply and_cong; [apply read_amount|].
  apply and_cong; [apply read_amount|].
  apply and_cong; [apply read_amount|].
  apply and_cong; [apply read_amount|].
  apply and_cong; [apply read_amount|].
  apply and_cong; [apply read_amount|].
  apply and_cong; [apply read_amount|].
  apply and_cong; [apply read_amount|].
  apply and_cong; [apply read_amount|].
  apply and_cong; [apply read_amount|].
  apply and_cong; [apply read_amount|].
  apply and_cong; [apply read_amount|].
  apply and_last. apply read_amount.
Qed.

Lemma VestInfo_read e : reads_struct e VestInfo_fields VestInfo_to (VestInfo_says e).
Proof.
  intros kids r. rewrite struct_iff by (vm_compute; reflexivity). unfold VestInfo_fields, VestInfo_to, VestInfo_says. open_fields.
  apply and_cong; [apply read_opt_date|].
  apply and_last. apply read_amount.
Qed.

Lemma Inv401KSummaryAggregate_read e : reads_struct e Inv401KSummaryAggregate_fields Inv401KSummaryAggregate_to (Inv401KSummaryAggregate_says e).
Proof.
  intros kids r. rewrite struct_iff by (vm_compute; reflexivity). unfold Inv401KSummaryAggregate_fields, Inv401KSummaryAggregate_to, Inv401KSummaryAggregate_says. open_fields.
  apply and_cong; [apply read_amount|].
  apply and_cong; [apply read_amount|].
  apply and_cong; [apply read_amount|].
  apply and_cong; [apply read_amount|].
  apply and_cong; [apply read_amount|].
  apply and_cong; [apply read_amount|].
  apply and_cong; [apply read_amount|].
  apply and_last. apply read_amount.
Qed.

Lemma Inv401KSummaryPeriod_read e : reads_struct e Inv401KSummaryPeriod_fields Inv401KSummaryPeriod_to (Inv401KSummaryPeriod_says e).
Proof.
  intros kids r. rewrite struct_iff by (vm_compute; reflexivity). unfold Inv401KSummaryPeriod_fields, Inv401KSummaryPeriod_to, Inv401KSummaryPeriod_says. open_fields.
  apply and_cong; [apply read_date|].
  apply and_cong; [apply read_date|].
  apply and_cong; [apply (read_opt_part e _ _ _ _ _ _ _ (Inv401KSummaryAggregate_read e)); reflexivity|].
  apply and_cong; [apply (read_opt_part e _ _ _ _ _ _ _ (Inv401KSummaryAggregate_read e)); reflexivity|].
  apply and_last. apply (read_opt_part e _ _ _ _ _ _ _ (Inv401KSummaryAggregate_read e)); reflexivity.
Qed.

Lemma Inv401K_read e : reads_struct e Inv401K_fields Inv401K_to (Inv401K_says e).
Proof.
  intros kids r. rewrite struct_iff by (vm_compute; reflexivity). unfold Inv401K_fields, Inv401K_to, Inv401K_says. open_fields.
  apply and_cong; [apply read_text|].
  apply and_cong; [apply read_text|].
  apply and_cong; [apply read_opt_date|].
  apply and_cong; [apply read_text|].
  apply and_cong; [apply read_text|].
  apply and_cong; [apply read_amount|].
  apply and_cong; [apply read_amount|].
  apply and_cong; [apply read_amount|].
  apply and_cong; [apply read_amount|].
  apply and_cong; [apply read_amount|].
  apply and_cong; [apply read_opt_date|].
  apply and_cong; [apply read_amount|].
  apply and_cong; [apply read_amount|].
  apply and_cong; [apply (read_parts e _ _ _ _ _ _ _ (ContribSecurity_read e)); reflexivity|].
  apply and_cong; [apply read_amount|].
  apply and_cong; [apply (read_parts e _ _ _ _ _ _ _ (VestInfo_read e)); reflexivity|].
  apply and_cong; [apply read_none; reflexivity|].
  apply and_cong; [apply (read_part e _ _ _ _ _ _ _ (Inv401KSummaryPeriod_read e)); reflexivity|].
  apply and_cong; [apply (read_opt_part e _ _ _ _ _ _ _ (Inv401KSummaryPeriod_read e)); reflexivity|].
  apply and_last. apply (read_opt_part e _ _ _ _ _ _ _ (Inv401KSummaryPeriod_read e)); reflexivity.
Qed.

Lemma Inv401KBal_read e : reads_struct e Inv401KBal_fields Inv401KBal_to (Inv401KBal_says e).
Proof.
  intros kids r. rewrite struct_iff by (vm_compute; reflexivity). unfold Inv401KBal_fields, Inv401KBal_to, Inv401KBal_says. open_fields.
  apply and_cong; [apply read_amount|].
  apply and_cong; [apply read_amount|].
  apply and_cong; [apply read_amount|].
  apply and_cong; [apply read_amount|].
  apply and_cong; [apply read_amount|].
  apply and_cong; [apply read_amount|].
  apply and_cong; [apply read_amount|].
  apply and_cong; [apply read_amount|].
  apply and_cong; [apply read_amount|].
  apply and_last. apply (read_parts e _ _ _ _ _ _ _ (Balance_read e)); reflexivity.
Qed.

Lemma Position_read e : reads_alt e Position_alts Position_to (Position_says e).
Proof.
  intros nm k r. unfold Position_alts, Position_to, Position_says. destruct r as [x|x|x|x|x].
  - exact (alt_first e (bs "POSDEBT") DebtPosition_fields _ _ DebtPosition_to (DebtPosition_says e) nm (bs "POSDEBT") k x (DebtPosition_read e) eq_refl).
  - apply alt_next; [discriminate|]. exact (alt_first e (bs "POSMF") MFPosition_fields _ _ MFPosition_to (MFPosition_says e) nm (bs "POSMF") k x (MFPosition_read e) eq_refl).
  - apply alt_next; [discriminate|]. apply alt_next; [discriminate|]. exact (alt_first e (bs "POSOPT") OptPosition_fields _ _ OptPosition_to (OptPosition_says e) nm (bs "POSOPT") k x (OptPosition_read e) eq_refl).
  - apply alt_next; [discriminate|]. apply alt_next; [discriminate|]. apply alt_next; [discriminate|]. exact (alt_first e (bs "POSOTHER") OtherPosition_fields _ _ OtherPosition_to (OtherPosition_says e) nm (bs "POSOTHER") k x (OtherPosition_read e) eq_refl).
  - apply alt_next; [discriminate|]. apply alt_next; [discriminate|]. apply alt_next; [discriminate|]. apply alt_next; [discriminate|]. exact (alt_first e (bs "POSSTOCK") StockPosition_fields _ _ StockPosition_to (StockPosition_says e) nm (bs "POSSTOCK") k x (StockPosition_read e) eq_refl).
Qed.

Lemma OpenOrder_read e : reads_alt e OpenOrder_alts OpenOrder_to (OpenOrder_says e).
Proof.
  intros nm k r. unfold OpenOrder_alts, OpenOrder_to, OpenOrder_says. destruct r as [x|x|x|x|x|x|x|x|x|x|x].
  - exact (alt_first e (bs "OOBUYDEBT") OOBuyDebt_fields _ _ OOBuyDebt_to (OOBuyDebt_says e) nm (bs "OOBUYDEBT") k x (OOBuyDebt_read e) eq_refl).
  - apply alt_next; [discriminate|]. exact (alt_first e (bs "OOBUYMF") OOBuyMF_fields _ _ OOBuyMF_to (OOBuyMF_says e) nm (bs "OOBUYMF") k x (OOBuyMF_read e) eq_refl).
  - apply alt_next; [discriminate|]. apply alt_next; [discriminate|]. exact (alt_first e (bs "OOBUYOPT") OOBuyOpt_fields _ _ OOBuyOpt_to (OOBuyOpt_says e) nm (bs "OOBUYOPT") k x (OOBuyOpt_read e) eq_refl).
  - apply alt_next; [discriminate|]. apply alt_next; [discriminate|]. apply alt_next; [discriminate|]. exact (alt_first e (bs "OOBUYOTHER") OOBuyOther_fields _ _ OOBuyOther_to (OOBuyOther_says e) nm (bs "OOBUYOTHER") k x (OOBuyOther_read e) eq_refl).
  - apply alt_next; [discriminate|]. apply alt_next; [discriminate|]. apply alt_next; [discriminate|]. apply alt_next; [discriminate|]. exact (alt_first e (bs "OOBUYSTOCK") OOBuyStock_fields _ _ OOBuyStock_to (OOBuyStock_says e) nm (bs "OOBUYSTOCK") k x (OOBuyStock_read e) eq_refl).
  - apply alt_next; [discriminate|]. apply alt_next; [discriminate|]. apply alt_next; [discriminate|]. apply alt_next; [discriminate|]. apply alt_next; [discriminate|]. exact (alt_first e (bs "OOSELLDEBT") OOSellDebt_fields _ _ OOSellDebt_to (OOSellDebt_says e) nm (bs "OOSELLDEBT") k x (OOSellDebt_read e) eq_refl).
  - apply alt_next; [discriminate|]. apply alt_next; [discriminate|]. apply alt_next; [discriminate|]. apply alt_next; [discriminate|]. apply alt_next; [discriminate|]. apply alt_next; [discriminate|]. exact (alt_first e (bs "OOSELLMF") OOSellMF_fields _ _ OOSellMF_to (OOSellMF_says e) nm (bs "OOSELLMF") k x (OOSellMF_read e) eq_refl).
  - apply alt_next; [discriminate|]. apply alt_next; [discriminate|]. apply alt_next; [discriminate|]. apply alt_next; [discriminate|]. apply alt_next; [discriminate|]. apply alt_next; [discriminate|]. apply alt_next; [discriminate|]. exact (alt_first e (bs "OOSELLOPT") OOSellOpt_fields _ _ OOSellOpt_to (OOSellOpt_says e) nm (bs "OOSELLOPT") k x (OOSellOpt_read e) eq_refl).
  - apply alt_next; [discriminate|]. apply alt_next; [discriminate|]. apply alt_next; [discriminate|]. apply alt_next; [discriminate|]. apply alt_next; [discriminate|]. apply alt_next; [discriminate|]. apply alt_next; [discriminate|]. apply alt_next; [discriminate|]. exact (alt_first e (bs "OOSELLOTHER") OOSellOther_fields _ _ OOSellOther_to (OOSellOther_says e) nm (bs "OOSELLOTHER") k x (OOSellOther_read e) eq_refl).
  - apply alt_next; [discriminate|]. apply alt_next; [discriminate|]. apply alt_next; [discriminate|]. apply alt_next; [discriminate|]. apply alt_next; [discriminate|]. apply alt_next; [discriminate|]. apply alt_next; [discriminate|]. apply alt_next; [discriminate|]. apply alt_next; [discriminate|]. exact (alt_first e (bs "OOSELLSTOCK") OOSellStock_fields _ _ OOSellStock_to (OOSellStock_says e) nm (bs "OOSELLSTOCK") k x (OOSellStock_read e) eq_refl).
  - apply alt_next; [discriminate|]. apply alt_next; [discriminate|]. apply alt_next; [discriminate|]. apply alt_next; [discriminate|]. apply alt_next; [discriminate|]. apply alt_next; [discriminate|]. apply alt_next; [discriminate|]. apply alt_next; [discriminate|]. apply alt_next; [discriminate|]. apply alt_next; [discriminate|]. exact (alt_first e (bs "SWITCHMF") OOSwitchMF_fields _ _ OOSwitchMF_to (OOSwitchMF_says e) nm (bs "SWITCHMF") k x (OOSwitchMF_read e) eq_refl).
Qed.

Lemma InvStatementResponse_read e : reads_struct e InvStatementResponse_fields InvStatementResponse_to (InvStatementResponse_says e).
Proof.
  intros kids r. rewrite struct_iff by (vm_compute; reflexivity). unfold InvStatementResponse_fields, InvStatementResponse_to, InvStatementResponse_says. open_fields.
  apply and_cong; [apply read_uid|].
  apply and_cong; [apply (read_part e _ _ _ _ _ _ _ (Status_read e)); reflexivity|].
  apply and_cong; [apply read_text|].
  apply and_cong; [apply read_date|].
  apply and_cong; [apply read_currency|].
  apply and_cong; [apply (read_part e _ _ _ _ _ _ _ (InvAcct_read e)); reflexivity|].
  apply and_cong; [apply (read_opt e InvTranList_ty InvTranList_to (InvTranList_says e)); intros v; unfold InvTranList_ty; rewrite into_custom; apply InvTranList_read|].
  apply and_cong; [apply read_listed, Position_read|].
  apply and_cong; [apply (read_opt_part e _ _ _ _ _ _ _ (InvBalance_read e)); reflexivity|].
  apply and_cong; [apply read_listed, OpenOrder_read|].
  apply and_cong; [apply read_text|].
  apply and_cong; [apply (read_opt_part e _ _ _ _ _ _ _ (Inv401K_read e)); reflexivity|].
  apply and_last. apply (read_opt_part e _ _ _ _ _ _ _ (Inv401KBal_read e)); reflexivity.
Qed.

Lemma ProfileRequest_read e : reads_struct e ProfileRequest_fields ProfileRequest_to (ProfileRequest_says e).
Proof.
  intros kids r. rewrite struct_iff by (vm_compute; reflexivity). unfold ProfileRequest_fields, ProfileRequest_to, ProfileRequest_says. open_fields.
  apply and_cong; [apply read_uid|].
  apply and_cong; [apply read_text|].
  apply and_cong; [apply read_text|].
  apply and_cong; [apply read_text|].
  apply and_last. apply read_date.
Qed.

Lemma SignonInfo_read e : reads_struct e SignonInfo_fields SignonInfo_to (SignonInfo_says e).
Proof.
  intros kids r. rewrite struct_iff by (vm_compute; reflexivity). unfold SignonInfo_fields, SignonInfo_to, SignonInfo_says. open_fields.
  apply and_cong; [apply read_text|].
  apply and_cong; [apply read_number|].
  apply and_cong; [apply read_number|].
  apply and_cong; [apply read_choice|].
  apply and_cong; [apply read_flag|].
  apply and_cong; [apply read_flag|].
  apply and_cong; [apply read_flag|].
  apply and_cong; [apply read_flag|].
  apply and_cong; [apply read_flag|].
  apply and_cong; [apply read_text|].
  apply and_cong; [apply read_text|].
  apply and_cong; [apply read_flag|].
  apply and_cong; [apply read_flag|].
  apply and_cong; [apply read_text|].
  apply and_cong; [apply read_text|].
  apply and_cong; [apply read_flag|].
  apply and_cong; [apply read_flag|].
  apply and_last. apply read_flag.
Qed.

Lemma MessageSet_read e : reads_struct e MessageSet_fields (fun m => snd (MessageSet_to m)) (MessageSet_says e).
Proof.
  intros kids r. rewrite struct_iff by (vm_compute; reflexivity). unfold MessageSet_fields, MessageSet_to, MessageSet_says. open_fields.
  apply and_cong; [apply read_number|].
  apply and_cong; [apply read_text|].
  apply and_cong; [apply read_choice|].
  apply and_cong; [apply read_flag|].
  apply and_cong; [apply read_text|].
  apply and_cong; [apply read_texts|].
  apply and_cong; [apply read_choice|].
  apply and_cong; [apply read_flag|].
  apply and_cong; [apply read_flag|].
  apply and_last. apply read_text.
Qed.

Lemma ProfileResponse_read e : reads_struct e ProfileResponse_fields ProfileResponse_to (ProfileResponse_says e).
Proof.
  intros kids r. rewrite struct_iff by (vm_compute; reflexivity). unfold ProfileResponse_fields, ProfileResponse_to, ProfileResponse_says. open_fields.
  apply and_cong; [apply read_uid|].
  apply and_cong; [apply (read_part e _ _ _ _ _ _ _ (Status_read e)); reflexivity|].
  apply and_cong; [apply read_text|].
  apply and_cong; [apply (read_msgsets e _ MessageSet_Name (fun m => snd (MessageSet_to m)) (MessageSet_says e)); [vm_compute; reflexivity | apply MessageSet_read]|].
  apply and_cong; [apply (read_parts e _ _ _ _ _ _ _ (SignonInfo_read e)); reflexivity|].
  apply and_cong; [apply read_date|].
  apply and_cong; [apply read_text|].
  apply and_cong; [apply read_text|].
  apply and_cong; [apply read_text|].
  apply and_cong; [apply read_text|].
  apply and_cong; [apply read_text|].
  apply and_cong; [apply read_text|].
  apply and_cong; [apply read_text|].
  apply and_cong; [apply read_text|].
  apply and_cong; [apply read_text|].
  apply and_cong; [apply read_text|].
  apply and_cong; [apply read_text|].
  apply and_cong; [apply read_text|].
  apply and_last. apply read_text.
Qed.

(** * Messages and responses *)

Lemma of_to {A B} (to : A -> B) (of : B -> A) : (forall r, of (to r) = r) -> (forall v, to (of v) = v) ->
  forall o r, option_map of o = Some r <-> o = Some (to r).
Proof.
  intros H1 H2 [v|] r; cbn [option_map]; split; try discriminate.
  - intros [= <-]. rewrite H2. reflexivity.
  - intros [= ->]. rewrite H1. reflexivity.
Qed.

Lemma whole_struct {A} e x fs (to : A -> interp_flds fs) of R n k r :
  (forall r, of (to r) = r) -> (forall v, to (of v) = v) -> reads_struct e fs to R -> fits x n = true ->
  option_map of (unmarshal e (TStruct x fs) (Elem n k) (zero (TStruct x fs))) = Some r <-> R k r.
Proof. intros H1 H2 H Hx. rewrite (of_to to of H1 H2), struct_fits by exact Hx. apply H. Qed.

Lemma message_read e kids m : reads_as e (Elem (transaction_tag m) kids) m <-> message_says e kids m.
Proof.
  destruct m as [r|r|r|r|r|r|r|r|r|r|r|r|r]; cbn [reads_as transaction_tag message_says].
  - apply (whole_struct e (bs "ACCTINFOTRNRQ") AcctInfoRequest_fields AcctInfoRequest_to AcctInfoRequest_of); [apply AcctInfoRequest_iso | apply AcctInfoRequest_inv | apply AcctInfoRequest_read | reflexivity].
  - apply (whole_struct e (bs "STMTTRNRQ") StatementRequest_fields StatementRequest_to StatementRequest_of); [apply StatementRequest_iso | apply StatementRequest_inv | apply StatementRequest_read | reflexivity].
  - apply (whole_struct e (bs "CCSTMTTRNRQ") CCStatementRequest_fields CCStatementRequest_to CCStatementRequest_of); [apply CCStatementRequest_iso | apply CCStatementRequest_inv | apply CCStatementRequest_read | reflexivity].
  - apply (whole_struct e (bs "INVSTMTTRNRQ") InvStatementRequest_fields InvStatementRequest_to InvStatementRequest_of); [apply InvStatementRequest_iso | apply InvStatementRequest_inv | apply InvStatementRequest_read | reflexivity].
  - apply (whole_struct e (bs "SECLISTTRNRQ") SecListRequest_fields SecListRequest_to SecListRequest_of); [apply SecListRequest_iso | apply SecListRequest_inv | apply SecListRequest_read | reflexivity].
  - apply (whole_struct e (bs "PROFTRNRQ") ProfileRequest_fields ProfileRequest_to ProfileRequest_of); [apply ProfileRequest_iso | apply ProfileRequest_inv | apply ProfileRequest_read | reflexivity].
  - apply (whole_struct e (bs "ACCTINFOTRNRS") AcctInfoResponse_fields AcctInfoResponse_to AcctInfoResponse_of); [apply AcctInfoResponse_iso | apply AcctInfoResponse_inv | apply AcctInfoResponse_read | reflexivity].
  - apply (whole_struct e (bs "STMTTRNRS") StatementResponse_fields StatementResponse_to StatementResponse_of); [apply StatementResponse_iso | apply StatementResponse_inv | apply StatementResponse_read | reflexivity].
  - apply (whole_struct e (bs "CCSTMTTRNRS") CCStatementResponse_fields CCStatementResponse_to CCStatementResponse_of); [apply CCStatementResponse_iso | apply CCStatementResponse_inv | apply CCStatementResponse_read | reflexivity].
  - apply (whole_struct e (bs "INVSTMTTRNRS") InvStatementResponse_fields InvStatementResponse_to InvStatementResponse_of); [apply InvStatementResponse_iso | apply InvStatementResponse_inv | apply InvStatementResponse_read | reflexivity].
  - apply (whole_struct e (bs "SECLISTTRNRS") SecListResponse_fields SecListResponse_to SecListResponse_of); [apply SecListResponse_iso | apply SecListResponse_inv | apply SecListResponse_read | reflexivity].
  - rewrite (of_to SecurityList_to SecurityList_of SecurityList_iso SecurityList_inv). unfold SecurityList_ty.
    rewrite unmarshal_custom. apply SecurityList_read.
  - apply (whole_struct e (bs "PROFTRNRS") ProfileResponse_fields ProfileResponse_to ProfileResponse_of); [apply ProfileResponse_iso | apply ProfileResponse_inv | apply ProfileResponse_read | reflexivity].
Qed.

Lemma signon_read e n r :
  ~ no_element n /\ option_map SignonResponse_of (unmarshal e SignonResponse_ty n (zero SignonResponse_ty)) = Some r <->
  exists k, n = Elem (bs "SONRS") k /\ SignonResponse_says e k r.
Proof.
  split.
  - intros [Hn H]. destruct n as [nm k| |]; try (exfalso; apply Hn; intros ? ?; discriminate).
    destruct (str_eqb (bs "SONRS") nm) eqn:E.
    + apply str_eqb_eq in E as <-. exists k. split; [reflexivity|]. revert H.
      apply (whole_struct e (bs "SONRS") SignonResponse_fields SignonResponse_to SignonResponse_of); [apply SignonResponse_iso | apply SignonResponse_inv | apply SignonResponse_read | reflexivity].
    + exfalso. unfold SignonResponse_ty in H. rewrite unmarshal_struct, E in H. discriminate H.
  - intros (k & -> & H). split; [intros Hn; exact (Hn _ _ eq_refl)|]. revert H.
    apply (whole_struct e (bs "SONRS") SignonResponse_fields SignonResponse_to SignonResponse_of); [apply SignonResponse_iso | apply SignonResponse_inv | apply SignonResponse_read | reflexivity].
Qed.

Lemma element_read e set m n : message_reads e set m n <-> element_says e set m n.
Proof.
  unfold message_reads, element_says. split.
  - intros (Hb & (kids & ->) & H). split; [exact Hb|]. exists kids. split; [reflexivity|]. apply message_read. exact H.
  - intros (Hb & kids & -> & H). split; [exact Hb|]. split; [exists kids; reflexivity|]. apply message_read. exact H.
Qed.

Lemma Forall2_iff {A B} (P Q : A -> B -> Prop) : (forall a b, P a b <-> Q a b) -> forall l m, Forall2 P l m <-> Forall2 Q l m.
Proof. intros H l m. split; intros F; induction F; constructor; try assumption; apply H; assumption. Qed.

Lemma response_read e ofx r : response_reads e ofx r <-> response_says e ofx r.
Proof.
  unfold response_reads, response_says. split.
  - intros (kids & b & s & a & sets & E1 & E2 & H1 & H2 & H3 & H4 & H5 & H6).
    destruct (proj1 (signon_read e s (rs_signon r)) (conj H3 H4)) as (k & -> & Hk).
    exists kids, b, k, a, sets. repeat (split; [assumption|]).
    intros set ms Hin. apply (proj1 (Forall2_iff _ _ (element_read e set) _ _)). apply H6. exact Hin.
  - intros (kids & b & k & a & sets & E1 & E2 & H1 & H2 & H3 & H5 & H6).
    destruct (proj2 (signon_read e (Elem (bs "SONRS") k) (rs_signon r))) as [Ha Hb]; [exists k; split; [reflexivity | exact H3]|].
    exists kids, b, (Elem (bs "SONRS") k), a, sets. repeat (split; [assumption|]).
    intros set ms Hin. apply (proj2 (Forall2_iff _ _ (element_read e set) _ _)). apply H6. exact Hin.
Qed.
