(** More facts about the command line tool: what its commands print, send and
    save. *)
From Coq Require Import QArith Lia Bool ZifyBool ZifyNat ZifyN.
From Verif Require Import GoStr SpecStr GoStrFacts GoNum GoUint GoTime Types Enums EnumTables EnumFacts Records Common Messages Codec Schema
  Document SpecDocument SetsFacts TreeFacts Utf8 Wire WireFacts Url Clients SpecClients ClientFacts Accessors SpecLists ValidFacts Cli SpecCli CliFacts.
Close Scope Q_scope.

(** ** Printing *)

Lemma enum_text_spec t e : In t all_enums -> enum_string t e = Some (enum_text t e).
Proof.
  intros H. unfold enum_text. destruct (enum_string t e) eqn:E; [reflexivity|]. exfalso.
  destruct (enum_marshal_spec t H e) as [(n & _ & _ & _ & Hs)|(_ & _ & _ & Hs)]; congruence.
Qed.

Lemma pad_right_padded n s : padded n s (pad_right n s).
Proof.
  exists (n - length (runes s)). split; [reflexivity|]. lia.
Qed.

Lemma transaction_text_line cur name t : shown_name t name -> transaction_line cur t (transaction_text cur name t).
Proof.
  intros Hn. unfold transaction_text. cbv zeta.
  replace (with_memo name t ++ [chr 10]) with (name ++ (match Transaction_Memo t with [] => [] | memo => bs " - " ++ memo end) ++ [chr 10]).
  2:{ unfold with_memo, is_empty. destruct (Transaction_Memo t); [reflexivity|]. rewrite <- !app_assoc. reflexivity. }
  econstructor; [exact Hn|apply pad_right_padded|apply enum_text_spec; cbn; tauto|apply pad_right_padded].
Qed.

Lemma is_empty_iff s : is_empty s = true <-> s = [].
Proof. destruct s; cbn; split; congruence. Qed.

Lemma print_transaction_runs cur t l e : io_runs (print_transaction cur t) l e ->
  exists line, transaction_line cur t line /\ l = [EPrint line] /\ e = Finished tt.
Proof.
  unfold print_transaction. cbv zeta. intros H. apply print_runs in H as [-> ->]. eexists. split; [|split; reflexivity]. apply transaction_text_line.
  destruct (is_empty (Transaction_Name t)) eqn:E.
  - apply is_empty_iff in E. destruct (Transaction_Payee t) as [p|] eqn:Ep; [left; right; split; eauto|right; auto].
  - left. left. split; [|reflexivity]. intros X. rewrite X in E. discriminate.
Qed.

Lemma print_cc_transaction_runs cur t l e : io_runs (print_cc_transaction cur t) l e ->
  (exists line name, payee_name t name /\ transaction_line cur t line /\ l = [EPrint line] /\ e = Finished tt) \/
  (Transaction_Name t = [] /\ Transaction_Payee t = None /\ l = [] /\ e = Crashed).
Proof.
  unfold print_cc_transaction. destruct (is_empty (Transaction_Name t)) eqn:E.
  - apply is_empty_iff in E. destruct (Transaction_Payee t) as [p|] eqn:Ep; intros H.
    + apply print_runs in H as [-> ->]. left. assert (payee_name t (Payee_Name p)) by (right; split; eauto). exists (transaction_text cur (Payee_Name p) t), (Payee_Name p).
      split; [assumption|]. split; [apply transaction_text_line; left; assumption|auto].
    + apply io_panic_inv in H as [-> ->]. auto.
  - intros H. apply print_runs in H as [-> ->]. left. exists (transaction_text cur (Transaction_Name t) t), (Transaction_Name t).
    assert (payee_name t (Transaction_Name t)) by (left; split; [intros X; rewrite X in E; discriminate|reflexivity]).
    split; [assumption|]. split; [apply transaction_text_line; left; assumption|auto].
Qed.

Lemma each_lines A (R : A -> str -> Prop) (f : A -> io unit) ts :
  (forall t l e, io_runs (f t) l e -> exists line, R t line /\ l = [EPrint line] /\ e = Finished tt) ->
  forall l e, io_runs (each ts f) l e ->
  exists lines, Forall2 R ts lines /\ printed l = concat lines /\ network l = [] /\ e = Finished tt.
Proof.
  intros Hf. induction ts as [|t ts IH]; cbn [each]; intros l e H.
  - apply io_return_inv in H as [-> ->]. exists []. auto.
  - apply io_runs_bind in H as [([] & l1 & l2 & H1 & H & ->)|[(c & -> & H)|[-> H]]]; apply Hf in H1 || apply Hf in H;
      try (destruct H as (? & _ & _ & X); discriminate).
    destruct H1 as (line & Hr & -> & _). destruct (IH _ _ H) as (lines & Hl & Hp & Hn & ->). exists (line :: lines).
    split; [constructor; assumption|].
    change (printed ([EPrint line] ++ l2)) with (line ++ printed l2). rewrite Hp. auto.
Qed.

Lemma each_cc cur ts : forall l e, io_runs (each ts (print_cc_transaction cur)) l e ->
  network l = [] /\
  ((exists lines, Forall2 (transaction_line cur) ts lines /\ printed l = concat lines /\ e = Finished tt /\
     Forall (fun t => exists name, payee_name t name) ts) \/
   (e = Crashed /\ exists t, In t ts /\ Transaction_Name t = [] /\ Transaction_Payee t = None)).
Proof.
  induction ts as [|t ts IH]; cbn [each]; intros l e H.
  - apply io_return_inv in H as [-> ->]. split; [reflexivity|]. left. exists []. auto.
  - apply io_runs_bind in H as [([] & l1 & l2 & H1 & H & ->)|[(c & -> & H)|[-> H]]].
    + apply print_cc_transaction_runs in H1 as [(line & name & Hn & Hr & -> & _)|(_ & _ & _ & X)]; [|discriminate].
      destruct (IH _ _ H) as [Hnet [(lines & Hl & Hp & -> & Hf)|(-> & t' & Ht & Hc)]].
      * split; [exact Hnet|]. left. exists (line :: lines). split; [constructor; assumption|].
        change (printed ([EPrint line] ++ l2)) with (line ++ printed l2). rewrite Hp.
        split; [reflexivity|]. split; [reflexivity|]. constructor; [exists name; exact Hn|exact Hf].
      * split; [exact Hnet|]. right. split; [reflexivity|]. exists t'. split; [right; exact Ht|exact Hc].
    + apply print_cc_transaction_runs in H as [(line & name & Hn & Hr & _ & X)|(_ & _ & _ & X)]; discriminate.
    + apply print_cc_transaction_runs in H as [(line & name & Hn & Hr & _ & X)|(Hn & Hp & -> & _)]; [discriminate|].
      split; [reflexivity|]. right. split; [reflexivity|]. exists t. split; [left; reflexivity|auto].
Qed.

(** The three commands that print transactions, and the list of accounts. *)

Lemma println_then A s (p : io A) l e : io_runs (println s ~; p) l e -> exists l', l = EPrint (s ++ [chr 10]) :: l' /\ io_runs p l' e.
Proof. unfold println. cbn [bind_io]. intros H. apply io_print_inv in H. exact H. Qed.
Lemma println_runs s l (e : ended unit) : io_runs (println s) l e -> l = [EPrint (s ++ [chr 10])] /\ e = Finished tt.
Proof. unfold println. intros H. apply io_print_inv in H as (l' & -> & H). apply io_return_inv in H as [-> ->]. auto. Qed.

Lemma print_bank_runs r l e : io_runs (print_bank r) l e -> network l = [] /\
  match sl_bank (rs_slots r) with
  | [] => printed l = bs "No banking messages received" ++ [chr 10] /\ e = Finished tt
  | MsgStatementResponse s :: _ =>
      match StatementResponse_BankTranList s with
      | None => e = Crashed
      | Some ts => statement_text (StatementResponse_BalAmt s) (StatementResponse_CurDef s) (StatementResponse_DtAsOf s)
                     (TransactionList_Transactions ts) (printed l) /\ e = Finished tt
      end
  | _ => printed l = [] /\ e = Finished tt
  end.
Proof.
  unfold print_bank. destruct (sl_bank (rs_slots r)) as [|x xs].
  - intros H. apply println_runs in H as [-> ->]. split; [reflexivity|]. split; reflexivity.
  - destruct x; try (intros H; apply io_return_inv in H as [-> ->]; split; [reflexivity|auto]; fail).
    intros H. apply print_then in H as (l1 & -> & H). apply println_then in H as (l2 & -> & H).
    match goal with |- context[StatementResponse_BankTranList ?s] => destruct (StatementResponse_BankTranList s) as [ts|] end.
    + eapply each_lines in H as (lines & Hl & Hp & Hn & ->); [|intros; apply print_transaction_runs; eassumption].
      split; [exact Hn|]. split; [|reflexivity]. exists lines. split; [exact Hl|]. match goal with |- printed (EPrint ?a :: EPrint ?b :: l2) = _ => change (printed (EPrint a :: EPrint b :: l2)) with (a ++ b ++ printed l2) end.
      rewrite Hp, <- app_assoc. reflexivity.
    + apply io_panic_inv in H as [-> ->]. split; reflexivity.
Qed.

Lemma print_cc_runs r l e : io_runs (print_cc r) l e -> network l = [] /\
  match sl_creditcard (rs_slots r) with
  | [] => printed l = bs "No banking messages received" ++ [chr 10] /\ e = Finished tt
  | MsgCCStatementResponse s :: _ =>
      match CCStatementResponse_BankTranList s with
      | None => e = Crashed
      | Some ts =>
          (Forall (fun t => exists name, payee_name t name) (TransactionList_Transactions ts) /\
           statement_text (CCStatementResponse_BalAmt s) (CCStatementResponse_CurDef s) (CCStatementResponse_DtAsOf s)
             (TransactionList_Transactions ts) (printed l) /\ e = Finished tt) \/
          (e = Crashed /\ exists t, In t (TransactionList_Transactions ts) /\ Transaction_Name t = [] /\ Transaction_Payee t = None)
      end
  | _ => printed l = [] /\ e = Finished tt
  end.
Proof.
  unfold print_cc. destruct (sl_creditcard (rs_slots r)) as [|x xs].
  - intros H. apply println_runs in H as [-> ->]. split; [reflexivity|]. split; reflexivity.
  - destruct x; try (intros H; apply io_return_inv in H as [-> ->]; split; [reflexivity|auto]; fail).
    intros H. apply print_then in H as (l1 & -> & H). apply println_then in H as (l2 & -> & H).
    match goal with |- context[CCStatementResponse_BankTranList ?s] => destruct (CCStatementResponse_BankTranList s) as [ts|] end.
    + apply each_cc in H as [Hn [(lines & Hl & Hp & -> & Hf)|(-> & Hc)]]; (split; [exact Hn|]); [left|right; auto].
      split; [exact Hf|]. split; [|reflexivity]. exists lines. split; [exact Hl|]. match goal with |- printed (EPrint ?a :: EPrint ?b :: l2) = _ => change (printed (EPrint a :: EPrint b :: l2)) with (a ++ b ++ printed l2) end.
      rewrite Hp, <- app_assoc. reflexivity.
    + apply io_panic_inv in H as [-> ->]. split; reflexivity.
Qed.

(** ** Investments and accounts *)

Lemma in_order_skip ps x s : in_order ps s -> in_order ps (x ++ s).
Proof. induction 1 as [|p ps a s H IH]; [constructor|]. rewrite app_assoc. constructor. exact H. Qed.
Lemma in_order_here p ps s : in_order ps s -> in_order (p :: ps) (p ++ s).
Proof. intros H. exact (io_cons p ps [] s H). Qed.
Lemma in_order_end p : in_order [p] p.
Proof. replace p with (p ++ []) at 2 by apply app_nil_r. apply in_order_here. constructor. Qed.

Ltac ordered := rewrite <- ?app_assoc;
  repeat match goal with
  | |- in_order [] _ => apply io_nil
  | |- in_order (?p :: _) (?p ++ _) => apply in_order_here
  | |- in_order [?p] ?p => apply in_order_end
  | |- in_order _ (_ ++ _) => apply in_order_skip
  end.

Ltac filled_in :=
  change currency_or with used_currency; change enum_text with enum_name;
  unfold bs; cbn [filled list_ascii_of_string Ascii.eqb Bool.eqb app map concat]; repeat (rewrite <- ?app_assoc; progress cbn [app]);
  rewrite <- ?app_assoc; reflexivity.

Lemma buy_filled cur b : inv_buy_text cur b =
  date_string (InvTran_DtTrade (InvBuy_InvTran b)) ++ filled (bs "% (% %)@% % (Total: %)") (buy_facts cur b) ++ [chr 10].
Proof. unfold inv_buy_text, inv_tran_text, sec_text, buy_facts. filled_in. Qed.
Lemma sell_filled cur b : inv_sell_text cur b =
  date_string (InvTran_DtTrade (InvSell_InvTran b)) ++ filled (bs " % (% %)@% % (Total: %)") (sell_facts cur b) ++ [chr 10].
Proof. unfold inv_sell_text, inv_tran_text, sec_text, sell_facts. filled_in. Qed.

Lemma inv_text_filled cur t : inv_transaction_text cur t = pad_right 14 (transaction_name t) ++
  date_string (InvTran_DtTrade (InvTransaction_InvTransaction_method t)) ++ filled (inv_template t) (inv_facts cur t) ++ [chr 10].
Proof.
  unfold inv_transaction_text. cbv zeta.
  destruct t; cbn [transaction_name InvTransaction_TransactionType_method InvTransaction_InvTransaction_method inv_template inv_facts];
    apply f_equal;
    lazymatch goal with
    | |- inv_buy_text _ _ = _ => apply buy_filled
    | |- inv_sell_text _ _ = _ => apply sell_filled
    | |- _ => unfold inv_tran_text, sec_text; apply f_equal; filled_in
    end.
Qed.

Lemma inv_text_line cur t : investment_line cur t (inv_transaction_text cur t).
Proof. rewrite inv_text_filled. constructor. apply pad_right_padded. Qed.

Lemma account_text_filled a : account_text a = account_entry a.
Proof.
  unfold account_entry, account_template, account_facts, account_text. cbv zeta.
  destruct (AcctInfo_BankAcctInfo a); [filled_in|]. destruct (AcctInfo_CCAcctInfo a); [filled_in|]. destruct (AcctInfo_InvAcctInfo a); filled_in.
Qed.

Lemma print_lines A (R : A -> str -> Prop) (f : A -> str) ts l e : (forall t, R t (f t)) ->
  io_runs (each ts (fun t => print (f t))) l e ->
  exists lines, Forall2 R ts lines /\ printed l = concat lines /\ network l = [] /\ e = Finished tt.
Proof.
  intros Hf. apply each_lines. intros t l' e' H. apply print_runs in H as [-> ->]. exists (f t). auto.
Qed.

Lemma each_blocks A (R : A -> str -> Prop) (f : A -> io unit) ts :
  (forall t l e, io_runs (f t) l e -> exists s, R t s /\ printed l = s /\ network l = [] /\ e = Finished tt) ->
  forall l e, io_runs (each ts f) l e ->
  exists lines, Forall2 R ts lines /\ printed l = concat lines /\ network l = [] /\ e = Finished tt.
Proof.
  intros Hf. induction ts as [|t ts IH]; cbn [each]; intros l e H.
  - apply io_return_inv in H as [-> ->]. exists []. auto.
  - apply io_runs_bind in H as [([] & l1 & l2 & H1 & H & ->)|[(c & -> & H)|[-> H]]]; apply Hf in H1 || apply Hf in H;
      try (destruct H as (? & _ & _ & _ & X); discriminate).
    destruct H1 as (s & Hr & Hp1 & Hn1 & _). destruct (IH _ _ H) as (lines & Hl & Hp & Hn & ->). exists (s :: lines).
    split; [constructor; assumption|]. rewrite printed_app, network_app, Hp1, Hp, Hn1, Hn. auto.
Qed.

Lemma cash_block cur b l e :
  io_runs (print ([chr 10] ++ bs "Bank Transactions for " ++ enum_text enum_subAcctType (InvBankTransaction_SubAcctFund b) ++
                  bs " subaccount:" ++ [chr 10]) ~; each (InvBankTransaction_Transactions b) (print_transaction cur)) l e ->
  exists s, cash_lines cur b s /\ printed l = s /\ network l = [] /\ e = Finished tt.
Proof.
  intros H. apply print_then in H as (l' & -> & H). eapply each_lines in H as (lines & Hl & Hp & Hn & ->); [|intros; apply print_transaction_runs; eassumption].
  eexists. split; [constructor; exact Hl|]. split; [|auto].
  match goal with |- printed (EPrint ?a :: l') = _ => change (printed (EPrint a :: l')) with (a ++ printed l') end.
  rewrite Hp, <- !app_assoc. reflexivity.
Qed.

Lemma visible_cash_iff q : rat_is_int q && negb (big_int64 (Qnum (Qred q)) =? 0)%Z = true <-> visible_cash q.
Proof.
  rewrite andb_true_iff, negb_true_iff. unfold visible_cash, rat_is_int. rewrite Pos.eqb_eq, Z.eqb_neq, big_int64_zero. split.
  - intros [Hd Hn]. exists (Qnum (Qred q)). split; [|exact Hn]. rewrite <- (Qred_correct q) at 1. destruct (Qred q) as [n d]. cbn in *. subst d. reflexivity.
  - intros (z & Hq & Hz). apply Qred_complete in Hq. rewrite Hq.
    assert (E : Qred (inject_Z z) = inject_Z z).
    { unfold Qred, inject_Z. pose proof (Z.ggcd_gcd z 1) as Hg. pose proof (Z.ggcd_correct_divisors z 1) as Hc.
      destruct (Z.ggcd z 1) as [g [a b]]. cbn [fst] in Hg. rewrite Z.gcd_1_r in Hg. subst g. destruct Hc as [Ha Hb].
      rewrite Z.mul_1_l in Ha, Hb. cbn [snd fst]. rewrite <- Ha, <- Hb. reflexivity. }
    rewrite E. cbn [Qnum Qden inject_Z]. auto.
Qed.

Lemma print_inv_runs r l e : io_runs (print_inv r) l e -> network l = [] /\
  match sl_invstmt (rs_slots r) with
  | [] => printed l = bs "No investment messages received" ++ [chr 10] /\ e = Finished tt
  | MsgInvStatementResponse s :: _ =>
      match InvStatementResponse_InvBal s, InvStatementResponse_InvTranList s with
      | Some b, Some ts => investment_text (InvBalance_AvailCash b) (InvStatementResponse_CurDef s) (InvStatementResponse_DtAsOf s) ts (printed l) /\
                           e = Finished tt
      | _, _ => e = Crashed
      end
  | _ => printed l = [] /\ e = Finished tt
  end.
Proof.
  unfold print_inv. destruct (sl_invstmt (rs_slots r)) as [|x xs].
  - intros H. apply println_runs in H as [-> ->]. split; [reflexivity|]. split; reflexivity.
  - destruct x; try (intros H; apply io_return_inv in H as [-> ->]; split; [reflexivity|auto]; fail).
    cbv zeta. match goal with |- context[InvStatementResponse_InvBal ?x] => set (s := x) end.
    destruct (InvStatementResponse_InvBal s) as [b|].
    2:{ intros H. apply io_panic_inv in H as [-> ->]. split; reflexivity. }
    set (q := InvBalance_AvailCash b).
    intros H. assert (exists bal l1 l2, l = l1 ++ l2 /\ printed l1 = bal /\ network l1 = [] /\
      (visible_cash q /\ bal = balance_line q (InvStatementResponse_CurDef s) (InvStatementResponse_DtAsOf s) \/ ~ visible_cash q /\ bal = []) /\
      io_runs (match InvStatementResponse_InvTranList s with
          | None => Panic
          | Some l =>
              each (InvTranList_BankTransactions l) (fun bt =>
                print ([chr 10] ++ bs "Bank Transactions for " ++
                       enum_text enum_subAcctType (InvBankTransaction_SubAcctFund bt) ++ bs " subaccount:" ++ [chr 10]) ~;
                each (InvBankTransaction_Transactions bt) (print_transaction (InvStatementResponse_CurDef s))) ~;
              print ([chr 10] ++ bs "Investment Transactions:" ++ [chr 10]) ~;
              each (InvTranList_InvTransactions l) (fun t => print (inv_transaction_text (InvStatementResponse_CurDef s) t))
          end) l2 e) as (bal & l1 & l2 & -> & Hp1 & Hn1 & Hb & H2).
    { destruct (rat_is_int q && negb (big_int64 (Qnum (Qred q)) =? 0)%Z) eqn:E.
      - apply visible_cash_iff in E. apply print_then in H as (l' & -> & H).
        exists (balance_line q (InvStatementResponse_CurDef s) (InvStatementResponse_DtAsOf s)), [EPrint (balance_text q (InvStatementResponse_CurDef s) (InvStatementResponse_DtAsOf s))], l'.
        split; [reflexivity|]. split; [apply app_nil_r|]. split; [reflexivity|]. split; [left; auto|exact H].
      - exists [], [], l. split; [reflexivity|]. split; [reflexivity|]. split; [reflexivity|]. split; [right; split; [|reflexivity]|exact H].
        rewrite <- visible_cash_iff. congruence. }
    clear H. destruct (InvStatementResponse_InvTranList s) as [ts|].
    2:{ apply io_panic_inv in H2 as [-> ->]. rewrite network_app, Hn1. split; reflexivity. }
    apply io_runs_bind in H2 as [([] & l3 & l4 & H1 & H & ->)|[(c & -> & H)|[-> H]]];
      (eapply each_blocks in H || eapply each_blocks in H1); try (intros; apply cash_block; eassumption);
      try (destruct H as (? & _ & _ & _ & X); discriminate).
    destruct H1 as (banks & Hbk & Hp3 & Hn3 & _).
    apply print_then in H as (l5 & -> & H). apply (print_lines _ _ _ _ _ _ (inv_text_line (InvStatementResponse_CurDef s))) in H as (lines & Hl & Hp5 & Hn5 & ->).
    split; [rewrite !network_app, Hn1, Hn3; exact Hn5|]. split; [|reflexivity]. exists bal, banks, lines.
    split; [exact Hb|]. split; [exact Hbk|]. split; [exact Hl|]. rewrite !printed_app, Hp1, Hp3.
    match goal with |- _ ++ _ ++ printed (EPrint ?a :: l5) = _ => change (printed (EPrint a :: l5)) with (a ++ printed l5) end.
    rewrite Hp5, <- !app_assoc. reflexivity.
Qed.

Definition print_accounts (r : Response) : io unit :=
  match sl_signup (rs_slots r) with
  | [] => println (bs "No signup messages received")
  | x :: _ =>
      print ([chr 10] ++ bs "Found the following accounts:" ++ [chr 10; chr 10]) ~;
      match x with
      | MsgAcctInfoResponse a => each (AcctInfoResponse_AcctInfo a) (fun i => print (account_text i))
      | _ => Return tt
      end
  end.

Lemma print_accounts_runs r l e : io_runs (print_accounts r) l e -> network l = [] /\ e = Finished tt /\
  printed l = match sl_signup (rs_slots r) with
              | [] => bs "No signup messages received" ++ [chr 10]
              | MsgAcctInfoResponse a :: _ => accounts_text (AcctInfoResponse_AcctInfo a)
              | _ => accounts_text []
              end.
Proof.
  unfold print_accounts. destruct (sl_signup (rs_slots r)) as [|x xs].
  - intros H. apply println_runs in H as [-> ->]. split; [reflexivity|]. split; reflexivity.
  - intros H. apply print_then in H as (l1 & -> & H).
    assert (exists as', match x with MsgAcctInfoResponse a => as' = AcctInfoResponse_AcctInfo a | _ => as' = [] end /\
      printed l1 = concat (map account_entry as') /\ network l1 = [] /\ e = Finished tt) as (as' & Hx & Hp & Hn & ->).
    { destruct x; try (apply io_return_inv in H as [-> ->]; exists []; auto; fail).
      apply (print_lines _ (fun a s => s = account_entry a) account_text _ _ _ account_text_filled) in H as (lines & Hl & Hp5 & Hn5 & ->).
      eexists. split; [reflexivity|]. split; [|auto]. rewrite Hp5. f_equal.
      clear - Hl. induction Hl as [|a b la lb E _ IH]; [reflexivity|]. cbn [map]. rewrite E, IH. reflexivity. }
    split; [exact Hn|]. split; [reflexivity|].
    assert (Ha : printed (EPrint ([chr 10] ++ bs "Found the following accounts:" ++ [chr 10; chr 10]) :: l1) = accounts_text as').
    { match goal with |- printed (EPrint ?a :: l1) = _ => change (printed (EPrint a :: l1)) with (a ++ printed l1) end.
      rewrite Hp. unfold accounts_text. rewrite <- !app_assoc. reflexivity. }
    destruct x; rewrite Hx in Ha; exact Ha.
Qed.

Lemma accounts_shape : query_shape get_accounts print_accounts.
Proof.
  eapply query_shape_make; [|reflexivity]. intros m st l e H. unfold get_accounts in H. prelude H.
  right. exists [ERand r]. eexists _, _, _, _. split; [reflexivity|]. split; [reflexivity|]. split; [reflexivity|]. exact H.
Qed.

(** ** The settings after the flags *)

Definition bool_after (n : str) (d : bool) (l : list (str * str)) : bool :=
  fold_left (fun d p => if str_eqb (fst p) n
                        then existsb (str_eqb (snd p)) [bs "1"; bs "t"; bs "T"; bs "true"; bs "TRUE"; bs "True"] else d) l d.
Definition uint_after (n : str) (d : N) (l : list (str * str)) : N :=
  fold_left (fun d p => if str_eqb (fst p) n then match parse_uint64 (snd p) with Some k => k | None => d end else d) l d.

Definition settings_after (l : list (str * str)) (st : settings) : settings :=
  mkSettings (value_of (bs "url") (st_serverURL st) l) (value_of (bs "username") (st_username st) l)
    (value_of (bs "password") (st_password st) l) (value_of (bs "org") (st_org st) l) (value_of (bs "fid") (st_fid st) l)
    (value_of (bs "appid") (st_appID st) l) (value_of (bs "appver") (st_appVer st) l)
    (value_of (bs "ofxversion") (st_ofxVersion st) l) (value_of (bs "clientuid") (st_clientUID st) l)
    (bool_after (bs "noindent") (st_noIndent st) l) (bool_after (bs "carriagereturn") (st_carriageReturn st) l)
    (bool_after (bs "dryrun") (st_dryrun st) l) (value_of (bs "useragent") (st_userAgent st) l)
    (value_of (bs "filename") (st_filename st) l) (value_of (bs "bankid") (st_bankID st) l)
    (value_of (bs "acctid") (st_acctID st) l) (value_of (bs "accttype") (st_acctType st) l)
    (value_of (bs "brokerid") (st_brokerID st) l) (uint_after (bs "delay") (st_delay st) l).

Definition all_flags : flags :=
  server_flags ++ [f_filename; f_bankid; f_acctid; f_accttype; f_brokerid; (bs "delay", FUint set_delay)].

Lemma parse_bool_existsb s b : parse_bool s = Some b ->
  existsb (str_eqb s) [bs "1"; bs "t"; bs "T"; bs "true"; bs "TRUE"; bs "True"] = b.
Proof. unfold parse_bool. destruct (existsb _ _); [congruence|]. destruct (existsb _ _); congruence. Qed.

Lemma settings_step n v s st st' l : In (n, v) all_flags -> set_flag v s st = Some st' ->
  settings_after ((n, s) :: l) st = settings_after l st'.
Proof.
  intros H. unfold all_flags, server_flags in H. cbn [In app f_filename f_bankid f_acctid f_accttype f_brokerid] in H.
  repeat destruct H as [H|H]; [..|contradiction]; injection H as <- <-; cbn [set_flag]; intros E;
    try (destruct (parse_bool s) as [b|] eqn:Eb; [|discriminate]; apply parse_bool_existsb in Eb);
    try (destruct (parse_uint64 s) as [b|] eqn:Eb; [|discriminate]);
    injection E as <-; unfold settings_after, value_of, bool_after, uint_after; cbn [fold_left fst snd];
    repeat match goal with |- context[str_eqb (bs ?a) (bs ?b)] =>
      let x := eval vm_compute in (str_eqb (bs a) (bs b)) in change (str_eqb (bs a) (bs b)) with x end; cbv iota;
    rewrite ?Eb; reflexivity.
Qed.

Lemma settings_nil st : settings_after [] st = st.
Proof. destruct st. reflexivity. Qed.

Definition table_in (fl : flags) : Prop := forall p, In p fl -> In p all_flags.

Lemma command_tables_in c : In c commands -> table_in (cmd_flags c).
Proof.
  intros H p Hp. unfold all_flags. rewrite in_app_iff.
  cbn [In commands] in H. repeat destruct H as [<-|H]; [..|contradiction]; cbn [cmd_flags] in Hp;
    try (left; exact Hp);
    try (apply in_app_iff in Hp as [Hp|Hp]; [left; exact Hp|right; cbn [In] in Hp |- *; tauto]).
  unfold detect_flags in Hp. unfold server_flags. cbn [In] in Hp |- *. tauto.
Qed.

Lemma use_flag_sets fl n v st args : table_ok fl -> table_in fl ->
  match use_flag fl n v st args with
  | FMore st' rest =>
      exists s x, (v = Some s /\ rest = args \/ v = None /\ switch n /\ s = bs "true" /\ rest = args \/
                   v = None /\ ~ switch n /\ args = s :: rest) /\
        In (n, x) all_flags /\ set_flag x s st = Some st'
  | FDone _ => False
  | FHelp | FError => True
  end.
Proof.
  intros Ht Hin. unfold use_flag. destruct (find_flag n fl) as [x|] eqn:E; [|destruct (_ || _); exact I].
  apply find_flag_in in E. unfold table_ok in Ht. rewrite Forall_forall in Ht. specialize (Ht _ E). cbn [fst snd] in Ht. apply Hin in E. cbv zeta.
  destruct x as [f|f|f]; destruct Ht as [Hs Hf].
  - destruct v as [s|]; [|destruct args as [|s rest]; [exact I|]]; destruct (set_flag (FString f) s st) eqn:Es; try exact I; exists s, (FString f); auto 8.
  - destruct v as [s|].
    + destruct (set_flag (FBool f) s st) eqn:Es; try exact I; exists s, (FBool f); auto 8.
    + destruct (set_flag (FBool f) (bs "true") st) eqn:Es; try exact I; exists (bs "true"), (FBool f); auto 9.
  - destruct v as [s|]; [|destruct args as [|s rest]; [exact I|]]; destruct (set_flag (FUint f) s st) eqn:Es; try exact I; exists s, (FUint f); auto 8.
Qed.

Lemma parse_flags_after fl args asg : table_ok fl -> table_in fl -> flag_args args asg -> forall fuel st, length args < fuel ->
  (exists c, parse_flags_fuel fuel fl st args = Exit c) \/
  parse_flags_fuel fuel fl st args = Return (settings_after asg st).
Proof.
  intros Ht Hin Ha. induction Ha as [|s rest Hs|d n v rest l Hd Hn Ha IH|d n rest l Hd Hn Hs Ha IH|d n v rest l Hd Hn Hs Ha IH];
    intros fuel st Hf; (destruct fuel as [|fuel]; [lia|]); cbn [length] in Hf; cbn [parse_flags_fuel].
  - right. rewrite settings_nil. reflexivity.
  - rewrite parse_one_other by exact Hs. right. rewrite settings_nil. reflexivity.
  - rewrite parse_one_flag by (auto; right; reflexivity). rewrite split_flag_equals by exact Hn. cbn [fst snd].
    pose proof (use_flag_sets fl n (Some v) st rest Ht Hin) as Hu. destruct (use_flag fl n (Some v) st rest) as [st1|st1 rest1| |]; eauto; [contradiction|].
    destruct Hu as (s & x & [[[= <-] ->]|[(E & _)|(E & _)]] & Hx & Hu); try discriminate.
    rewrite (settings_step _ _ _ _ _ _ Hx Hu). apply IH. lia.
  - replace (d ++ n) with (d ++ n ++ []) by (rewrite app_nil_r; reflexivity). rewrite parse_one_flag by auto. rewrite app_nil_r, split_flag_plain by exact Hn. cbn [fst snd].
    pose proof (use_flag_sets fl n None st rest Ht Hin) as Hu. destruct (use_flag fl n None st rest) as [st1|st1 rest1| |]; eauto; [contradiction|].
    destruct Hu as (s & x & [[E _]|[(_ & _ & -> & ->)|(_ & E & _)]] & Hx & Hu); try discriminate; [|contradiction].
    rewrite (settings_step _ _ _ _ _ _ Hx Hu). apply IH. lia.
  - replace (d ++ n) with (d ++ n ++ []) by (rewrite app_nil_r; reflexivity). rewrite parse_one_flag by auto. rewrite app_nil_r, split_flag_plain by exact Hn. cbn [fst snd].
    pose proof (use_flag_sets fl n None st (v :: rest) Ht Hin) as Hu. destruct (use_flag fl n None st (v :: rest)) as [st1|st1 rest1| |]; eauto; [contradiction|].
    destruct Hu as (s & x & [[E _]|[(_ & E & _)|(_ & _ & E)]] & Hx & Hu); try discriminate; [contradiction|]. injection E as <- <-.
    rewrite (settings_step _ _ _ _ _ _ Hx Hu). apply IH. cbn [length] in Hf. lia.
Qed.

(** Flags that do not fit the grammar end the program; without the grammar, some
    settings come out. *)
Lemma parse_flags_some fl args : forall fuel st,
  (exists c, parse_flags_fuel fuel fl st args = Exit c) \/ exists st', parse_flags_fuel fuel fl st args = Return st'.
Proof.
  intros fuel. revert args. induction fuel as [|fuel IH]; intros args st; cbn [parse_flags_fuel]; [eauto|].
  destruct (parse_one fl st args) as [st1|st1 rest1| |]; eauto.
Qed.

(** Only asking for help ends with status 0 before a command is run. *)
Lemma use_flag_help fl n v st args : use_flag fl n v st args = FHelp -> In n [bs "h"; bs "help"].
Proof.
  unfold use_flag. destruct (find_flag n fl) as [x|].
  - cbv zeta. destruct x, v as [?|], args as [|? ?]; try destruct (set_flag _ _ _); discriminate.
  - destruct (str_eqb n (bs "help")) eqn:E1; [apply str_eqb_eq in E1 as ->; cbn; tauto|].
    destruct (str_eqb n (bs "h")) eqn:E2; [apply str_eqb_eq in E2 as ->; cbn; tauto|]. discriminate.
Qed.

Lemma parse_flags_exit fl args asg : table_ok fl -> table_in fl -> flag_args args asg -> forall fuel st,
  parse_flags_fuel fuel fl st args = Exit 0 -> exists n, In n [bs "h"; bs "help"] /\ In n (map fst asg).
Proof.
  intros Ht Hin Ha. induction Ha as [|s rest Hs|d n v rest l Hd Hn Ha IH|d n rest l Hd Hn Hs Ha IH|d n v rest l Hd Hn Hs Ha IH];
    intros fuel st; (destruct fuel as [|fuel]; cbn [parse_flags_fuel]; [discriminate|]).
  - discriminate.
  - rewrite parse_one_other by exact Hs. discriminate.
  - rewrite parse_one_flag by (auto; right; reflexivity). rewrite split_flag_equals by exact Hn. cbn [fst snd].
    pose proof (use_flag_sets fl n (Some v) st rest Ht Hin) as Hu. pose proof (use_flag_help fl n (Some v) st rest) as Hh.
    destruct (use_flag fl n (Some v) st rest) as [st1|st1 rest1| |]; intros H; try discriminate.
    + destruct Hu as (s & x & [[[= <-] ->]|[(E & _)|(E & _)]] & _); try discriminate.
      destruct (IH _ _ H) as (k & Hk & Hi). exists k. split; [exact Hk|right; exact Hi].
    + exists n. split; [auto|left; reflexivity].
  - replace (d ++ n) with (d ++ n ++ []) by (rewrite app_nil_r; reflexivity). rewrite parse_one_flag by auto. rewrite app_nil_r, split_flag_plain by exact Hn. cbn [fst snd].
    pose proof (use_flag_sets fl n None st rest Ht Hin) as Hu. pose proof (use_flag_help fl n None st rest) as Hh.
    destruct (use_flag fl n None st rest) as [st1|st1 rest1| |]; intros H; try discriminate.
    + destruct Hu as (s & x & [[E _]|[(_ & _ & -> & ->)|(_ & E & _)]] & _); try discriminate; [|contradiction].
      destruct (IH _ _ H) as (k & Hk & Hi). exists k. split; [exact Hk|right; exact Hi].
    + exists n. split; [auto|left; reflexivity].
  - replace (d ++ n) with (d ++ n ++ []) by (rewrite app_nil_r; reflexivity). rewrite parse_one_flag by auto. rewrite app_nil_r, split_flag_plain by exact Hn. cbn [fst snd].
    pose proof (use_flag_sets fl n None st (v :: rest) Ht Hin) as Hu. pose proof (use_flag_help fl n None st (v :: rest)) as Hh.
    destruct (use_flag fl n None st (v :: rest)) as [st1|st1 rest1| |]; intros H; try discriminate.
    + destruct Hu as (s & x & [[E _]|[(_ & E & _)|(_ & _ & E)]] & _); try discriminate; [contradiction|]. injection E as <- <-.
      destruct (IH _ _ H) as (k & Hk & Hi). exists k. split; [exact Hk|right; exact Hi].
    + exists n. split; [auto|left; reflexivity].
Qed.

(** ** From the command line to the command *)

Definition end_of (e : ended unit) : ended unit := match e with Finished _ => Exited 0 | e => e end.

Lemma check_server_ends m st l e : io_runs (check_server_flags m st) l e -> exists r, e = Finished r.
Proof.
  intros H. unfold check_server_flags, println, print in H.
  destruct (is_empty (st_serverURL st)), (is_empty (st_username st)); cbn [bind_io negb andb] in H;
    repeat (apply io_print_inv in H as (? & -> & H)); try (apply io_return_inv in H as [_ X]; eauto; fail).
  destruct (is_empty (st_password st)); [|apply io_return_inv in H as [_ X]; eauto].
  cbn [bind_io] in H. apply io_print_inv in H as (? & -> & H). apply io_prompt_inv in H as ([p|] & ? & -> & H);
    [|cbn [bind_io] in H; apply io_print_inv in H as (? & -> & H)]; apply io_return_inv in H as [_ X]; eauto.
Qed.
Lemma check_download_ends m st l e : io_runs (check_download_flags m st) l e -> exists r, e = Finished r.
Proof.
  intros H. unfold check_download_flags, println in H. apply io_runs_bind in H as [(r & l1 & l2 & _ & H & ->)|[(code & X & H)|[X H]]];
    [|apply check_server_ends in H as [r Y]; discriminate Y|apply check_server_ends in H as [r Y]; discriminate Y].
  destruct (is_empty _); cbn [bind_io] in H; [apply io_print_inv in H as (? & -> & H)|]; apply io_return_inv in H as [_ X]; eauto.
Qed.
Lemma check_ends c m st l e : In c commands -> io_runs (cmd_check c m st) l e -> exists r, e = Finished r.
Proof.
  intros Hc H. cbn [In commands] in Hc.
  repeat destruct Hc as [<-|Hc]; [..|contradiction]; cbn [cmd_check] in H; unfold check_profile_flags in H;
    first [eapply check_server_ends; exact H | eapply check_download_ends; exact H].
Qed.

Lemma main_runs m name c args l e : find_command name commands = Some c -> io_runs (main m (name :: args)) l e ->
  (Forall local_event l /\ exists code, e = Exited code /\ (code <> 0%Z \/ parse_flags (cmd_flags c) args = Exit code)) \/
  exists st st' l1 l2 e', parse_flags (cmd_flags c) args = Return st /\ io_runs (cmd_check c m st) l1 (Finished (true, st')) /\
    Forall local_event l1 /\ io_runs (cmd_do c m st') l2 e' /\ l = l1 ++ l2 /\ e = end_of e'.
Proof.
  intros Hc H. unfold main in H. rewrite Hc in H. apply find_command_in in Hc as [Hc _].
  assert (H' : (exists l0 , io_runs (run_cmd m c args) l (Finished tt) /\ l0 = l /\ e = Exited 0) \/
               (exists code, e = Exited code /\ io_runs (run_cmd m c args) l (Exited code)) \/
               (e = Crashed /\ io_runs (run_cmd m c args) l Crashed)).
  { apply io_runs_bind in H as [([] & l1 & l2 & H1 & H & ->)|[(code & -> & H)|[-> H]]]; [|eauto|auto].
    apply io_exit_inv in H as [-> ->]. left. exists l1. rewrite app_nil_r. auto. }
  assert (Hr : exists e', io_runs (run_cmd m c args) l e' /\ e = end_of e').
  { destruct H' as [(l0 & H1 & _ & ->)|[(code & -> & H1)|[-> H1]]]; eexists; (split; [exact H1|reflexivity]). }
  clear H H'. destruct Hr as (e' & H & ->). unfold run_cmd, parse_flags in H.
  destruct (parse_flags_some (cmd_flags c) args (S (length args)) defaults) as [[code Ep]|[st Ep]]; rewrite Ep in H; cbn [bind_io] in H.
  - apply io_exit_inv in H as [-> ->]. left. split; [constructor|]. exists code. unfold parse_flags. auto.
  - destruct (commands_check c m st Hc) as [Hq _].
    apply io_runs_bind in H as [([ok st'] & l1 & l2 & H1 & H & ->)|[(code & -> & H)|[-> H]]].
    + pose proof (quiet_runs _ _ _ _ H1 Hq) as Hl1. cbn [fst snd] in H. destruct ok.
      * right. exists st, st', l1, l2, e'. unfold parse_flags. auto 8.
      * left. apply print_then in H as (l3 & -> & H). apply print_then in H as (l4 & -> & H). apply io_exit_inv in H as [-> ->].
        split; [apply Forall_app; split; [exact Hl1|repeat constructor]|]. exists 1%Z. split; [reflexivity|left; discriminate].
    + exfalso. apply (check_ends c m st l (Exited code) Hc) in H as [r X]. discriminate X.
    + exfalso. apply (check_ends c m st l Crashed Hc) in H as [r X]. discriminate X.
Qed.

Lemma is_empty_false s : is_empty s = false <-> s <> [].
Proof. destruct s; cbn; split; congruence. Qed.

Definition checked (st st' : settings) (l : list io_event) : Prop :=
  st_serverURL st <> [] /\ st_username st <> [] /\
  ((st_password st <> [] /\ l = [] /\ st' = st) \/
   (st_password st = [] /\ exists p, st' = set_password p st /\
      l = [EPrint (bs "Password for " ++ st_username st ++ bs ": "); EPrompt (Some p)])).

Lemma check_server_runs m st l st' : io_runs (check_server_flags m st) l (Finished (true, st')) -> checked st st' l.
Proof.
  intros H. unfold check_server_flags, println, print in H.
  destruct (is_empty (st_serverURL st)) eqn:Eu, (is_empty (st_username st)) eqn:En; cbn [bind_io negb andb] in H;
    repeat (apply io_print_inv in H as (? & -> & H)); try (apply io_return_inv in H as [_ X]; discriminate X).
  apply is_empty_false in Eu, En. split; [exact Eu|]. split; [exact En|].
  destruct (is_empty (st_password st)) eqn:Ep.
  - apply is_empty_iff in Ep. right. split; [exact Ep|]. apply io_print_inv in H as (? & -> & H). apply io_prompt_inv in H as ([p|] & ? & -> & H).
    + apply io_return_inv in H as [-> X]. injection X as ->. exists p. auto.
    + cbn [bind_io] in H. apply io_print_inv in H as (? & -> & H). apply io_return_inv in H as [_ X]. discriminate X.
  - apply is_empty_false in Ep. left. apply io_return_inv in H as [-> X]. injection X as ->. auto.
Qed.

Lemma check_download_runs m st l st' : io_runs (check_download_flags m st) l (Finished (true, st')) ->
  checked st st' l /\ st_filename st <> [].
Proof.
  intros H. unfold check_download_flags, println in H. apply io_runs_bind in H as [([ok st1] & l1 & l2 & H1 & H & ->)|[(code & X & _)|[X _]]]; try discriminate.
  cbn [snd] in H. destruct (is_empty (st_filename st1)) eqn:E; cbn [bind_io] in H.
  - apply io_print_inv in H as (? & -> & H). apply io_return_inv in H as [_ X]. discriminate X.
  - apply io_return_inv in H as [-> X]. injection X as <- <-. rewrite app_nil_r. apply check_server_runs in H1. split; [exact H1|].
    apply is_empty_false in E. destruct H1 as (_ & _ & [(_ & _ & ->)|(_ & p & -> & _)]); exact E.
Qed.

(** The commands by their names. *)
Lemma find_download name : In name downloads -> exists c, find_command name commands = Some c.
Proof. unfold downloads. cbn [In]. intros H. repeat destruct H as [<-|H]; [..|contradiction]; eexists; reflexivity. Qed.

(** What the check leaves, as the specification says it. *)
Lemma checked_credentials name asg st l st' : st = settings_after asg defaults -> checked st st' l ->
  credentials name asg l (st_username st') (st_password st') /\ value_of (bs "url") [] asg <> [] /\
  st' = set_password (st_password st') st.
Proof.
  intros -> (Hu & Hn & [(Hp & -> & ->)|(Hp & p & -> & ->)]); (split; [|split; [exact Hu|reflexivity]]).
  - apply cr_given; [exact Hn|exact Hp].
  - apply cr_asked; [exact Hn|exact Hp].
Qed.

Lemma checked_profile_credentials asg st l st' : st = settings_after asg defaults ->
  checked (if is_empty (st_username st) then set_password anonymous (set_username anonymous st) else st) st' l ->
  credentials (bs "download-profile") asg l (st_username st') (st_password st') /\ value_of (bs "url") [] asg <> [] /\
  st' = set_password (st_password st') (set_username (st_username st') st).
Proof.
  intros -> H. destruct (is_empty (st_username (settings_after asg defaults))) eqn:E.
  - apply is_empty_iff in E. destruct H as (Hu & Hn & [(Hp & -> & ->)|(Hp & p & -> & ->)]); [|discriminate Hp].
    split; [|split; [exact Hu|reflexivity]]. apply cr_anonymous; [reflexivity|exact E].
  - apply (checked_credentials (bs "download-profile") asg _ _ _ eq_refl) in H as (Hc & Hu & Es). split; [exact Hc|]. split; [exact Hu|].
    rewrite Es. reflexivity.
Qed.

(** How each command ends. *)
Inductive final (m : machine) (st : settings) (c : client) (q : Request) : str -> io unit -> Prop :=
| final_download name what : In name downloads -> final m st c q name (finish_download m what st c q)
| final_query name error k : In (name, k) (combine queries [print_accounts; print_bank; print_cc; print_inv]) ->
    final m st c q name (ask_and_check m error st c q k).

Lemma do_runs m cmd asg u p l e : In cmd commands -> cmd_name cmd <> bs "detect-settings" ->
  let st := set_password p (set_username u (settings_after asg defaults)) in
  io_runs (cmd_do cmd m st) l e ->
  (Forall local_event l /\ e = Exited 1) \/
  exists r uid c sl l2 f, random_uid r = Some uid /\ flag_client asg c /\ command_message m asg uid (cmd_name cmd) sl /\
    l = ERand r :: l2 /\ final m st c (flag_request asg u p sl) (cmd_name cmd) f /\ io_runs f l2 e.
Proof.
  intros Hc Hn st H. cbn [In commands] in Hc.
  assert (Hv : forall l' e', io_runs (new_request m st) l' e' -> (l' = [] /\ exists c, flag_client asg c /\ e' = Finished (c, empty_request st)) \/
    (Forall local_event l' /\ e' = Exited 1)).
  { intros l' e' Hr. unfold new_request in Hr. destruct (enum_new _ _) as [v []] eqn:Ev.
    - apply io_return_inv in Hr as [-> ->]. left. split; [reflexivity|]. eexists. split; [constructor; exact Ev|]. reflexivity.
    - apply println_exit in Hr as [-> ->]. right. split; [repeat constructor|reflexivity]. }
  assert (Hu : forall l' e', io_runs (new_uid m) l' e' -> (exists r uid, random_uid r = Some uid /\ e' = Finished uid /\ l' = [ERand r]) \/
    (Forall local_event l' /\ e' = Exited 1)).
  { intros l' e' Hr. apply new_uid_runs in Hr as (r & [(uid & Er & -> & ->)|(_ & -> & s & ->)]); [left; eauto|right; split; [repeat constructor|reflexivity]]. }
  assert (Ht : forall l' e', io_runs (account_type m st) l' e' -> (l' = [] /\ exists t, enum_new enum_acctType (value_of (bs "accttype") (bs "CHECKING") asg) = (t, true) /\ e' = Finished t) \/
    (Forall local_event l' /\ e' = Exited 1)).
  { intros l' e' Hr. unfold account_type in Hr. destruct (enum_new _ _) as [v []] eqn:Ev.
    - apply io_return_inv in Hr as [-> ->]. left. split; [reflexivity|]. exists v. split; reflexivity.
    - apply println_exit in Hr as [-> ->]. right. split; [repeat constructor|reflexivity]. }
  repeat destruct Hc as [<-|Hc]; [..|contradiction]; cbn [cmd_do cmd_name] in *; try (exfalso; apply Hn; reflexivity);
    unfold download_profile, get_accounts, download_bank, download_cc, download_inv, transactions_bank, transactions_cc, transactions_inv in H;
    (apply io_runs_bind in H as [(cq & l1 & l2 & H1 & H & ->)|[(code & -> & H)|[-> H]]];
     [apply Hv in H1 as [(-> & c & Hcl & E)|[_ E]]; [injection E as ->; cbn [fst snd app] in H|discriminate]
     |apply Hv in H as [(_ & c & _ & E)|[Hl E]]; [discriminate|injection E as ->; left; auto]
     |apply Hv in H as [(_ & c & _ & E)|[Hl E]]; discriminate]);
    try (apply io_runs_bind in H as [(t & l3 & l4 & H1 & H & ->)|[(code & -> & H)|[-> H]]];
     [apply Ht in H1 as [(-> & t' & Et & E)|[_ E]]; [injection E as ->; cbn [app] in H|discriminate]
     |apply Ht in H as [(_ & t' & _ & E)|[Hl E]]; [discriminate|injection E as ->; left; auto]
     |apply Ht in H as [(_ & t' & _ & E)|[Hl E]]; discriminate]; []);
    (apply io_runs_bind in H as [(uid & l5 & l6 & H1 & H & ->)|[(code & -> & H)|[-> H]]];
     [apply Hu in H1 as [(r & uid' & Er & E & ->)|[_ E]]; [injection E as <-|discriminate]
     |apply Hu in H as [(? & ? & _ & E & _)|[Hl E]]; [discriminate|injection E as ->; left; auto]
     |apply Hu in H as [(? & ? & _ & E & _)|[Hl E]]; discriminate]).
  all: right; exists r, uid, c; eexists; exists l6; eexists; (split; [exact Er|]); (split; [exact Hcl|]).
  all: split; [first [apply cm_profile | apply cm_accounts | apply cm_bank with (t := t'); [cbn; tauto|exact Et] | apply cm_cc; cbn; tauto | apply cm_inv; cbn; tauto]|].
  all: (split; [reflexivity|]); (split; [|exact H]).
  all: first [apply final_download; cbn; tauto | apply final_query; cbn; tauto].
Qed.

Lemma find_command_in name : forall l c, find_command name l = Some c -> In c l /\ cmd_name c = name.
Proof.
  induction l as [|d l IH]; cbn [find_command]; intros c H; [discriminate|].
  destruct (str_eqb_spec (cmd_name d) name) as [E|_].
  - injection H as <-. split; [left; reflexivity|exact E].
  - destruct (IH _ H). split; [right; assumption|assumption].
Qed.

Lemma find_command_of name : In name (downloads ++ queries) ->
  exists c, find_command name commands = Some c /\ In c commands /\ cmd_name c = name /\ name <> bs "detect-settings" /\
    ((cmd_check c = check_profile_flags /\ name = bs "download-profile") \/
     (cmd_check c = check_download_flags /\ In name downloads) \/ (cmd_check c = check_server_flags /\ In name queries)).
Proof.
  intros H. apply in_app_or in H.
  assert (F : exists c, find_command name commands = Some c /\ name <> bs "detect-settings" /\
    ((cmd_check c = check_profile_flags /\ name = bs "download-profile") \/
     (cmd_check c = check_download_flags /\ In name downloads) \/ (cmd_check c = check_server_flags /\ In name queries))).
  { destruct H as [H|H]; pose proof H as Hn; unfold downloads, queries in H; cbn [In] in H.
    - destruct H as [<-|H].
      { eexists. split; [reflexivity|]. split; [discriminate|]. left. split; reflexivity. }
      repeat destruct H as [<-|H]; [..|contradiction]; (eexists; split; [reflexivity|]; split; [discriminate|]; right; left; split; [reflexivity|exact Hn]).
    - repeat destruct H as [<-|H]; [..|contradiction]; (eexists; split; [reflexivity|]; split; [discriminate|]; right; right; split; [reflexivity|exact Hn]). }
  destruct F as (c & F & Hn & Hc). exists c. destruct (find_command_in _ _ _ F). auto.
Qed.

Lemma main_prepared m name args asg l e : In name (downloads ++ queries) -> flag_args args asg -> io_runs (main m (name :: args)) l e ->
  (Forall local_event l /\ exists code, e = Exited code /\ (code = 0%Z -> helped asg)) \/
  exists l1 c q l2 e' st f, prepared m name asg l1 c q /\ l = l1 ++ l2 /\ e = end_of e' /\
    st_dryrun st = turned_on (bs "dryrun") asg /\ st_filename st = value_of (bs "filename") (bs "./response.ofx") asg /\
    final m st c q name f /\ io_runs f l2 e'.
Proof.
  intros Hname Ha H. destruct (find_command_of name Hname) as (cmd & Hf & Hin & Hcn & Hnd & Hck).
  destruct (main_runs _ _ _ _ _ _ Hf H) as [Hl|(st & st' & l1 & l2 & e' & Hp & Hc & Hl1 & Hd & -> & ->)].
  { left. destruct Hl as (Hl & code & -> & Hcode). split; [exact Hl|]. exists code. split; [reflexivity|]. intros ->.
    destruct Hcode as [X|X]; [contradiction|]. unfold parse_flags in X.
    destruct (parse_flags_exit _ _ _ (command_tables _ Hin) (command_tables_in _ Hin) Ha _ _ X) as (n & Hn1 & Hn2). exists n. auto. }
  assert (Est : st = settings_after asg defaults).
  { unfold parse_flags in Hp. destruct (parse_flags_after (cmd_flags cmd) args asg (command_tables _ Hin) (command_tables_in _ Hin) Ha (S (length args)) defaults) as [[c E]|E]; [lia| |]; rewrite E in Hp; [discriminate|congruence]. }
  assert (Hcr : credentials name asg l1 (st_username st') (st_password st') /\ value_of (bs "url") [] asg <> [] /\
                st' = set_password (st_password st') (set_username (st_username st') st)).
  { destruct Hck as [[E En]|[[E _]|[E _]]]; rewrite E in Hc.
    - subst name. rewrite En. unfold check_profile_flags in Hc. apply check_download_runs in Hc as [Hc _].
      eapply checked_profile_credentials; eauto.
    - apply check_download_runs in Hc as [Hc _]. apply (checked_credentials name asg _ _ _ Est) in Hc as (H1 & H2 & H3).
      split; [exact H1|]. split; [exact H2|]. rewrite H3. reflexivity.
    - apply check_server_runs in Hc. apply (checked_credentials name asg _ _ _ Est) in Hc as (H1 & H2 & H3).
      split; [exact H1|]. split; [exact H2|]. rewrite H3. reflexivity. }
  destruct Hcr as (Hcr & Hurl & Est'). rewrite Est in Est'.
  revert Hcr Est'. generalize (st_username st') (st_password st'). intros u p Hcr Est'. subst st'.
  rewrite <- Hcn in Hnd. destruct (do_runs m cmd asg u p l2 e' Hin Hnd Hd) as [[Hl2 ->]|(r & uid & c & sl & l3 & f & Hr & Hcl & Hm & -> & Hfin & Hrun)].
  - left. split; [apply Forall_app; auto|]. exists 1%Z. split; [reflexivity|discriminate].
  - right. rewrite Hcn in *. exists (l1 ++ [ERand r]), c, (flag_request asg u p sl), l3, e'. eexists _, f.
    split; [econstructor; eauto|]. split; [rewrite <- app_assoc; reflexivity|]. split; [reflexivity|].
    split; [|split; [|split; [exact Hfin|exact Hrun]]]; reflexivity.
Qed.

(** ** Downloads *)

Lemma local_no_files l : Forall local_event l -> filter file_event l = [].
Proof. induction 1 as [|x l Hx _ IH]; [reflexivity|]. destruct x; try contradiction; exact IH. Qed.
Lemma files_net tr : filter file_event (map ENet tr) = [].
Proof. induction tr as [|x tr IH]; [reflexivity|]. exact IH. Qed.

Lemma prepared_local m name asg l c q : prepared m name asg l c q -> Forall local_event l.
Proof. intros [l1 u p r uid c' sl Hc _ _ _ _]. apply Forall_app. split; [|repeat constructor]. destruct Hc; repeat constructor. Qed.

Lemma print_request_runs m c q l e : io_runs (print_request m c q) l e -> e = Finished tt /\ exists t s, l = [EClock t; EPrint s] /\
  forall b q', request_marshal (set_client_fields t c q) = Some (b, q') -> s = b ++ [chr 10].
Proof.
  unfold print_request. intros H. apply io_clock_inv in H as (t & l' & -> & H).
  destruct (request_marshal _) as [[b q']|] eqn:E; apply println_runs in H as [-> ->]; (split; [reflexivity|]); exists t; eexists; (split; [reflexivity|]);
    intros b' q2 E'; rewrite E in E'; congruence.
Qed.

Lemma finish_runs m what st c q l e : st_dryrun st = false -> io_runs (finish_download m what st c q) l e ->
  exists t tr l2, l = EClock t :: map ENet tr ++ l2 /\ carries tr (client_document t c q) /\ network l2 = [] /\
    download_ends (st_filename st) tr (filter file_event l2) (end_of e).
Proof.
  intros Hd H. unfold finish_download in H. rewrite Hd in H.
  apply io_runs_bind in H as [(o & l1 & l2 & H1 & H & ->)|[(c0 & -> & H1)|[-> H1]]];
    apply send_runs in H1 as (t & tr & x & E & E2 & Hr); try discriminate.
  subst l1. injection E2 as ->. destruct x as [o q']. cbn [fst] in H. exists t, tr, l2. split; [reflexivity|].
  split; [exact (no_parse_carries _ _ _ _ _ _ Hr)|].
  apply no_parse_proper in Hr as [(rp & -> & Hc & Hl)|(Hc & err & Ho & _)].
  - apply io_create_inv in H as ([] & l3 & -> & H); cbn [negb] in H.
    + apply io_save_inv in H as ([] & l4 & -> & H); cbn [negb] in H.
      * apply io_return_inv in H as [-> ->]. split; [reflexivity|]. apply de_saved; assumption.
      * apply println_exit in H as [-> ->]. split; [reflexivity|]. apply de_not_saved; assumption.
    + apply println_exit in H as [-> ->]. split; [reflexivity|]. eapply de_no_file; eassumption.
  - destruct o as [a [err'|]]; [|discriminate]. assert (H' : io_runs (println (bs "Error requesting " ++ what ++ bs ": " ++ m_error m err') ~; Exit 1) l2 e) by (destruct a; exact H).
    apply println_exit in H' as [-> ->]. split; [reflexivity|]. apply de_no_answer. exact Hc.
Qed.

Lemma dry_final m st c q name f l e : st_dryrun st = true -> final m st c q name f -> io_runs f l e -> io_runs (print_request m c q) l e.
Proof. intros Hd Hf H. destruct Hf; [unfold finish_download in H|unfold ask_and_check in H]; rewrite Hd in H; exact H. Qed.

Lemma sent_final m st c q name f l e : final m st c q name f -> io_runs f l e -> network l <> [] ->
  st_dryrun st = false /\ exists t tr l2, l = EClock t :: map ENet tr ++ l2 /\ network l2 = [] /\
    carries tr (client_document t c q).
Proof.
  intros Hf H Hn. destruct (st_dryrun st) eqn:Hd.
  { exfalso. apply (dry_final _ _ _ _ _ _ _ _ Hd Hf) in H. apply print_request_runs in H as (_ & t & s & -> & _). apply Hn. reflexivity. }
  split; [reflexivity|]. destruct Hf as [? what ?|? error k Hk].
  - apply (finish_runs _ _ _ _ _ _ _ Hd) in H as (t & tr & l2 & -> & Hc & Hn2 & _). eauto 8.
  - unfold ask_and_check in H. rewrite Hd in H.
    apply io_runs_bind in H as [(x & l1 & l2 & H1 & H & ->)|[(c0 & -> & H1)|[-> H1]]];
      apply ask_runs in H1 as (t & tr & y & E & E2 & Hr); try discriminate.
    subst l1. injection E2 as ->. exists t, tr, l2. split; [reflexivity|]. destruct y as [y q']. split.
    + destruct (client_request_answer _ _ _ _ _ _ _ Hr) as [(r & -> & Ha)|(err & -> & Ha)]; cbn [fst] in H.
      * cbv zeta in H. destruct (Status_Code _ =? 0)%Z.
        -- cbn [combine queries In] in Hk. repeat destruct Hk as [Hk|Hk]; try contradiction; injection Hk as <- <-;
             first [apply print_accounts_runs in H | apply print_bank_runs in H | apply print_cc_runs in H | apply print_inv_runs in H]; tauto.
        -- apply print_then in H as (l' & -> & H). apply io_exit_inv in H as [-> _]. reflexivity.
      * destruct error as [s|]; [apply println_exit in H as [-> _]|apply io_exit_inv in H as [-> _]]; reflexivity.
    + apply client_request_runs in Hr as (o & Hr & _). exact (no_parse_carries _ _ _ _ _ _ Hr).
Qed.

(** ** What is sent *)
Lemma main_sends m name args asg l e : In name (downloads ++ queries) -> flag_args args asg -> io_runs (main m (name :: args)) l e ->
  network l <> [] ->
  exists l1 c q t tr l2, prepared m name asg l1 c q /\ l = l1 ++ EClock t :: map ENet tr ++ l2 /\ network l2 = [] /\ network l = tr /\
    carries tr (client_document t c q).
Proof.
  intros Hname Ha H Hn. destruct (main_prepared _ _ _ _ _ _ Hname Ha H) as [[Hl _]|(l1 & c & q & l2 & e' & st & f & Hp & -> & -> & _ & _ & Hf & Hr)].
  { exfalso. apply Hn, local_network, Hl. }
  rewrite network_app, (local_network _ (prepared_local _ _ _ _ _ _ Hp)) in Hn.
  destruct (sent_final _ _ _ _ _ _ _ _ Hf Hr Hn) as (_ & t & tr & l3 & -> & Hn3 & Hc). exists l1, c, q, t, tr, l3.
  split; [exact Hp|]. split; [reflexivity|]. split; [exact Hn3|]. split; [|exact Hc].
  rewrite network_app, (local_network _ (prepared_local _ _ _ _ _ _ Hp)).
  change (network (EClock t :: map ENet tr ++ l3)) with (network (map ENet tr ++ l3)). rewrite network_app, network_net, Hn3. apply app_nil_r.
Qed.

Lemma main_downloads m name args asg l e : In name downloads -> flag_args args asg -> io_runs (main m (name :: args)) l e ->
  (network l = [] /\ filter file_event l = [] /\ (status e = 0%Z -> turned_on (bs "dryrun") asg = true \/ helped asg) \/
   download_ends (value_of (bs "filename") (bs "./response.ofx") asg) (network l) (filter file_event l) e).
Proof.
  intros Hname Ha H. assert (Hname' : In name (downloads ++ queries)) by (apply in_or_app; left; exact Hname).
  destruct (main_prepared _ _ _ _ _ _ Hname' Ha H) as [(Hl & code & -> & Hcode)|(l1 & c & q & l2 & e' & st & f & Hp & -> & -> & Hdry & Hfn & Hf & Hr)].
  { left. split; [apply local_network; exact Hl|]. split; [apply local_no_files; exact Hl|]. cbn [status]. auto. }
  pose proof (prepared_local _ _ _ _ _ _ Hp) as Hl1. rewrite network_app, filter_app, (local_network _ Hl1), (local_no_files _ Hl1).
  destruct (st_dryrun st) eqn:Hd.
  { left. apply (dry_final _ _ _ _ _ _ _ _ Hd Hf) in Hr. apply print_request_runs in Hr as (_ & t & s & -> & _). split; [reflexivity|]. split; [reflexivity|]. auto. }
  destruct Hf as [? what ?|? error k Hk].
  - right. rewrite <- Hfn. apply (finish_runs _ _ _ _ _ _ _ Hd) in Hr as (t & tr & l3 & -> & _ & Hn3 & He).
    cbn [app]. change (network (EClock t :: map ENet tr ++ l3)) with (network (map ENet tr ++ l3)).
    change (filter file_event (EClock t :: map ENet tr ++ l3)) with (filter file_event (map ENet tr ++ l3)).
    rewrite network_app, network_net, Hn3, app_nil_r, filter_app, files_net. exact He.
  - exfalso. unfold downloads in Hname. cbn [combine queries In] in Hk, Hname.
    repeat destruct Hk as [Hk|Hk]; try contradiction; injection Hk as <- <-; repeat destruct Hname as [X|Hname]; try contradiction; discriminate X.
Qed.

(** ** Queries *)

Definition query_shows : list (str * (Response -> io unit)) := combine queries [print_accounts; print_bank; print_cc; print_inv].

Lemma main_queries m name k args l e : In (name, k) query_shows -> io_runs (main m (name :: args)) l e ->
  (network l = [] /\ exists code, e = Exited code) \/
  (e = Exited 1 /\ forall r, ~ accepted (m_env m) (network l) r) \/
  (exists r l1 l2 e', l = l1 ++ l2 /\ accepted (m_env m) (network l) r /\ prompted (printed l1) /\ network l2 = [] /\ io_runs (k r) l2 e' /\ e = end_of e').
Proof.
  intros Hk H.
  assert (Hc : exists c, find_command name commands = Some c /\ query_shape (cmd_do c) k /\ cmd_check c = check_server_flags).
  { unfold query_shows in Hk. cbn [combine queries In] in Hk. repeat destruct Hk as [Hk|Hk]; [..|contradiction]; injection Hk as <- <-;
      (eexists; split; [reflexivity|]); (split; [|reflexivity]); [exact accounts_shape|exact bank_shape|exact cc_shape|exact inv_shape]. }
  assert (Hq : forall r l e, io_runs (k r) l e -> network l = []).
  { intros r l' e' H'. unfold query_shows in Hk. cbn [combine queries In] in Hk. repeat destruct Hk as [Hk|Hk]; [..|contradiction]; injection Hk as <- <-;
      [apply print_accounts_runs in H'|apply print_bank_runs in H'|apply print_cc_runs in H'|apply print_inv_runs in H']; tauto. }
  destruct Hc as (c & Hc & Hs & Eck).
  destruct (main_runs _ _ _ _ _ _ Hc H) as [(Hl & code & -> & _)|(st & st' & l1 & l2 & e' & _ & Hck & Hl1 & Hd & -> & ->)].
  { left. split; [apply local_network, Hl|eauto]. }
  rewrite Eck in Hck. apply check_server_runs in Hck.
  assert (Hp1 : prompted (printed l1)).
  { destruct Hck as (_ & _ & [(_ & -> & _)|(_ & p & _ & ->)]); [left; reflexivity|right]. exists (st_username st).
    change (printed _) with ((bs "Password for " ++ st_username st ++ bs ": ") ++ []). apply app_nil_r. }
  rewrite network_app, (local_network _ Hl1).
  apply Hs in Hd as [(_ & Hn & [-> | ->])|[(-> & Hn)|(r & l3 & l4 & -> & Ha & Hp3 & Hr)]].
  - left. rewrite Hn. cbn. eauto.
  - left. rewrite Hn. cbn. eauto.
  - right. left. auto.
  - right. right. exists r, (l1 ++ l3), l4, e'. pose proof (Hq _ _ _ Hr) as Hn4. rewrite network_app, Hn4. cbn [app]. rewrite app_nil_r. rewrite <- app_assoc.
    rewrite printed_app, Hp3, app_nil_r. auto 8.
Qed.

Lemma accepted_unique e tr r r' : accepted e tr r -> accepted e tr r' -> r = r'.
Proof. intros [H _] [H' _]. eapply answered_unique; eauto. Qed.

Lemma query_accepted m name k args l e r : In (name, k) query_shows -> io_runs (main m (name :: args)) l e ->
  accepted (m_env m) (network l) r ->
  exists l1 l2 e', l = l1 ++ l2 /\ prompted (printed l1) /\ network l2 = [] /\ network l1 = network l /\ io_runs (k r) l2 e' /\ e = end_of e'.
Proof.
  intros Hk H Ha. destruct (main_queries _ _ _ _ _ _ Hk H) as [[Hn _]|[[_ Hn]|(r' & l1 & l2 & e' & -> & Ha' & Hpr & Hn & Hr & ->)]].
  - exfalso. rewrite Hn in Ha. exact (not_accepted_nil _ _ Ha).
  - exfalso. exact (Hn r Ha).
  - rewrite (accepted_unique _ _ _ _ Ha Ha'). exists l1, l2, e'. rewrite network_app, Hn, app_nil_r. auto 6.
Qed.

(** A crash is a crash of printing an accepted response. *)
Lemma query_crash m name k args l : In (name, k) query_shows -> io_runs (main m (name :: args)) l Crashed ->
  exists r l2, accepted (m_env m) (network l) r /\ io_runs (k r) l2 Crashed.
Proof.
  intros Hk H. destruct (main_queries _ _ _ _ _ _ Hk H) as [(_ & code & X)|[(X & _)|(r' & l1 & l2 & e' & -> & Ha' & Hpr & Hn & Hr & X)]]; try discriminate.
  exists r', l2. split; [exact Ha'|]. destruct e'; try discriminate. exact Hr.
Qed.

(** Nothing is sent and the status is 0: a dry run or the help flag. *)
Lemma query_silent m name args asg l e : In name queries -> flag_args args asg -> io_runs (main m (name :: args)) l e ->
  network l = [] -> status e = 0%Z -> turned_on (bs "dryrun") asg = true \/ helped asg.
Proof.
  intros Hname Ha H Hn He. assert (Hname' : In name (downloads ++ queries)) by (apply in_or_app; right; exact Hname).
  destruct (main_prepared _ _ _ _ _ _ Hname' Ha H) as [(Hl & code & -> & Hcode)|(l1 & c & q & l2 & e' & st & f & Hp & -> & -> & Hdry & Hfn & Hf & Hr)].
  { right. apply Hcode. exact He. }
  destruct (st_dryrun st) eqn:Hd; [left; congruence|]. exfalso. destruct Hf as [? what Hnd|? error k Hk].
  - revert Hname Hnd. unfold downloads, queries. cbn [In]. intros H1 H2.
    repeat destruct H1 as [<-|H1]; try contradiction; repeat destruct H2 as [H2|H2]; try contradiction; discriminate H2.
  - rewrite network_app, (local_network _ (prepared_local _ _ _ _ _ _ Hp)) in Hn. cbn [app] in Hn.
    apply (ask_and_check_runs _ _ _ _ _ _ _ _ Hd) in Hr as (t & tr & l' & -> & [(r & Hacc & _)|(_ & -> & _)]); [|discriminate He].
    change (network (EClock t :: map ENet tr ++ l')) with (network (map ENet tr ++ l')) in Hn. rewrite network_app, network_net in Hn.
    apply app_eq_nil in Hn as [-> _]. exact (not_accepted_nil _ _ Hacc).
Qed.
